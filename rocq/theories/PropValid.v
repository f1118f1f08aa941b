(* PropValid.v - C95: ValidateSpatialBounds and box queries on a file that a Writer wrote *)
From Coq Require Import Permutation.
From Verif Require Import Base BaseFacts ModelFloat ModelKey ModelGeom ModelEntry ModelPoint ModelPoints ModelHeader ModelVlr ModelExtents ModelConfig
  ModelStream ModelWriter ModelReader SpecKey SpecPoint SpecPoints SpecConfig SpecHeader SpecWriter SpecHier SpecFile SpecReader SpecData SpecRound SpecOrder SpecTotal SpecValid
  ProofFloat ProofScale ProofKey ProofPoint ProofConfig ProofWriter ProofWriter2 ProofResults ProofReject ProofCount ProofData ProofData2 ProofReader4 ProofReader6 ProofRound ProofOrder ProofTotal
  SampleWriter SampleReader PropWriter PropReader PropData PropRound PropCopy PropTrim.
Open Scope Z_scope.

(* ---- C95 ---- *)
Lemma one_content cd h f n a b : holds_records cd h f n a -> holds_records cd h f n b -> a = b.
Proof.
  intros (_ & _ & C & _ & _ & LA & A) (_ & _ & _ & _ & _ & LB & B). destruct (Z.eq_dec (e_count (n_entry n)) 0) as [E|E].
  - rewrite E in LA, LB. destruct a, b; cbn [length] in LA, LB; try lia. reflexivity.
  - specialize (A ltac:(lia)). specialize (B ltac:(lia)). congruence.
Qed.
(* point_within only looks at the coordinates, and rounding has one result *)
Definition same_place (p q : point) : Prop := p_x q = p_x p /\ p_y q = p_y p /\ p_z q = p_z p.
Lemma same_places a b ps qs : Forall2 same_place ps qs -> Forall (fun p => point_within p a = true /\ point_within p b = true) ps -> Forall (fun p => point_within p a = true /\ point_within p b = true) qs.
Proof. induction 1 as [|p q ps qs (X & Y & Z1) F IH]; intros H; [constructor|]. apply Forall_inv in H as H1. apply Forall_inv_tail in H. constructor; [|auto]. unfold point_within in *. now rewrite X, Y, Z1. Qed.
Lemma rounded_once s o : forall ps qs qs', Forall2 (comes_back s o) ps qs -> Forall2 (comes_back s o) ps qs' -> Forall2 same_place qs qs'.
Proof.
  intros ps qs qs' F. revert qs'. induction F as [|p q ps qs (_ & x & y & z & X & Y & Z1 & X' & Y' & Z2) F IH]; intros qs' G; inversion G as [|? q' ? qs1 (_ & x1 & y1 & z1 & A & B & C & A' & B' & C') G' E1 E2]; [constructor|].
  constructor; [|now apply IH]. unfold same_place. rewrite X', Y', Z2, A', B', C'. replace x1 with x by congruence. replace y1 with y by congruence. replace z1 with z by congruence. auto.
Qed.
Section A_file.
Context (cd : codec) (c0 : config) (ops : list wop) (l : log) (w : writer) (r : reader).
Hypothesis (LS : lossless cd) (W : written cd c0 ops l w) (SB : storable (w_cfg w)) (N : Z.of_nat (length ops) < 2 ^ 32 - 2) (R255 : h_reclen (c_hdr c0) <= 255).
Hypothesis (RA : records_added cd c0 l) (R : reader_on (file w) r).
Lemma positive_length : 0 < h_reclen (c_hdr c0).
Proof. destruct W as ((od & c & v & CS) & _). destruct (ready_base _ _ _ _ _ _ _ _ CS) as (_ & RB). pose proof (ProofPoint.las_base_range (h_fmt (c_hdr c0))). lia. Qed.
Lemma kept_readable : exists hs P, copc_pages (file w) hs /\ (forall k n, stored_node hs k n <-> seen_in l k n) /\ readable cd (c_hdr (r_cfg r)) (file w) hs P /\ plain_header (c_hdr (r_cfg r)) /\
  (forall n, stored_nodes hs n -> kept_points cd c0 l (n_key n) (P n)) /\ (forall k ps, kept_points cd c0 l k ps -> exists n, stored_nodes hs n /\ n_key n = k /\ P n = ps).
Proof.
  destruct (written_reader _ _ _ _ _ _ W R) as (hs & S & L & ST & _ & G). destruct (used_header _ _ _ _ _ _ W SB N R) as (F & RL & SC & OF).
  pose proof W as ((od' & c & v & CS) & _ & PO & _). destruct (ready_base _ _ _ _ _ _ _ _ CS) as (F6 & RB). pose proof positive_length as PL.
  destruct (all_nodes_good _ _ _ hs S L in_order r in_order_all G) as (ra & na & _ & _ & _ & (NK & NX) & _).
  assert (HD : forall m p op data, In (op, Ok (Some m)) l -> stores_records cd (c_hdr c0) op data -> wf_bytes data -> holds_records cd (c_hdr (r_cfg r)) (file w) (mkNode (n_entry m) p) data).
  { intros m p op data I D WB. apply (holds_written cd od' c v c0 ops l w op m data); auto. eapply op_positive; eauto. }
  assert (EX : forall n, In n na -> exists ps, node_points cd (c_hdr (r_cfg r)) (file w) n ps /\ kept_points cd c0 l (n_key n) ps).
  { intros n I. apply NX, ST in I as (m & p & V & E). destruct (view_added_node _ _ _ _ _ W _ _ _ V) as (I & _). apply added_in in I as (op & I). destruct (RA op m I) as (data & D & WB).
    pose proof (HD m p op data I D WB) as HR. pose proof HR as (H1 & H2 & H3 & H4 & H5 & H6 & H7). destruct (unpack_decodes (c_hdr (r_cfg r)) [] data H1 ltac:(lia) H5 _ H6 ltac:(lia)) as (qs & D' & _).
    exists qs. split; [rewrite E; exists data; auto|]. exists m, p, op, data. split; [exact V|]. split; [exact I|]. split; [exact D|]. split; [exact WB|]. eapply same_decodes; eauto. }
  destruct (choose node_dec _ [] na EX) as (P & HP). exists hs, P. split; [exact S|]. split; [exact ST|].
  split; [intros n I; now apply HP, NX|]. split; [unfold plain_header; rewrite F, RL; split; [exact F6|lia]|]. split; [intros n I; now apply HP, NX|].
  intros k ps (m & p & op & data & V & I & D & WB & DE). exists (mkNode (n_entry m) p).
  assert (KE : n_key (mkNode (n_entry m) p) = k) by (destruct (view_added_node _ _ _ _ _ W _ _ _ V) as (_ & K); exact K).
  assert (SN : stored_nodes hs (mkNode (n_entry m) p)) by (unfold stored_nodes; rewrite KE; apply ST; now exists m, p). split; [exact SN|]. split; [exact KE|].
  destruct (HP _ (proj2 (NX _) SN)) as ((data' & HR & D') & _). rewrite (one_content _ _ _ _ _ _ HR (HD m p op data I D WB)) in D'. eapply decodes_unique; [exact PL| |exact DE]. eapply same_decodes; eauto.
Qed.
End A_file.

(* ValidateSpatialBounds on a written file: true if and only if the points of every key, as they come back, lie in its
   voxel and within the bounds of the header that the Writer had at Close *)
Theorem C95_validates : forall cd c0 ops l w r od hb, lossless cd -> written cd c0 ops l w -> storable (w_cfg w) -> Z.of_nat (length ops) < 2 ^ 32 - 2 -> h_reclen (c_hdr c0) <= 255 ->
  records_added cd c0 l -> reader_on (file w) r -> visits_all od -> let h := c_hdr (w_cfg w) in header_bounds (h_min h) (h_max h) = Ok hb ->
  exists r' b, returns (fun fuel => validate_spatial_bounds cd fuel od false r) r' (Ok b) /\ (b = true <-> forall k ps, kept_points cd c0 l k ps -> in_place h hb k ps).
Proof.
  intros cd c0 ops l w r od hb LS W SB N R255 RA R VA h HB. destruct (kept_readable cd c0 ops l w r LS W SB N R255 RA R) as (hs & P & S & ST & RD & _ & PK & KP).
  destruct (used_config _ _ _ _ _ _ W SB N R) as ((_ & _ & _ & _ & (_ & _ & _ & _ & MX & MN & _)) & _). pose proof W as (_ & _ & _ & L).
  destruct (C52_validate cd (file w) hs od r P hb false S L VA R RD) as (r' & b & E & I); [rewrite MX, MN; exact HB|intros X; discriminate X|]. exists r', b. split; [exact E|]. rewrite I. clear I E.
  unfold spatially_valid, in_place, node_box. rewrite MX, MN. fold h. split.
  - intros V k ps K. destruct (KP k ps K) as (n & SN & <- & <-). now apply V.
  - intros V n SN. now apply (V (n_key n) (P n)), PK.
Qed.
Print Assumptions C95_validates.
Lemma points_records cd c0 ops l w : written cd c0 ops l w -> points_added l -> records_added cd c0 l /\
  (forall k ps, given_points l k ps -> exists qs, kept_points cd c0 l k qs /\ Forall2 (comes_back (h_scale (c_hdr c0)) (h_offset (c_hdr c0))) ps qs) /\
  (forall k qs, kept_points cd c0 l k qs -> exists ps, given_points l k ps /\ Forall2 (comes_back (h_scale (c_hdr c0)) (h_offset (c_hdr c0))) ps qs).
Proof.
  intros W PA. pose proof (positive_length cd c0 ops l w W) as PL. pose proof W as ((od & cc & v & CS) & _). destruct (ready_base _ _ _ _ _ _ _ _ CS) as (F6 & RB).
  assert (X : forall k hp c page n, In (WAddPoints k hp c page, Ok (Some n)) l -> exists data ps qs, stores_records cd (c_hdr c0) (WAddPoints k hp c page) data /\ wf_bytes data /\ mapM (hget hp) (c_pts c) = Ok ps /\
     decodes_to (c_hdr c0) data qs /\ Forall2 (comes_back (h_scale (c_hdr c0)) (h_offset (c_hdr c0))) ps qs).
  { intros k hp c page n I. destruct (PA _ _ I) as (k' & hp' & c' & page' & E & WP & U). injection E as <- <- <- <-. destruct (accepted_points _ _ _ _ _ _ _ _ _ _ _ _ _ CS I) as (F & RL & data & P).
    destruct (points_come_back (c_hdr c0) hp c data WP U F RL (proj1 RB) P) as (WB & ps & qs & E & D & FB). exists data, ps, qs. auto. }
  split; [|split].
  - intros op n I. destruct (PA _ _ I) as (k & hp & c & page & -> & _). destruct (X _ _ _ _ _ I) as (data & ps & qs & D & WB & _). eauto.
  - intros k ps (n & p & hp & c & page & V & I & M). destruct (X _ _ _ _ _ I) as (data & ps' & qs & D & WB & M' & DE & FB). assert (ps' = ps) as -> by congruence. exists qs. split; [|exact FB]. exists n, p, (WAddPoints k hp c page), data. auto.
  - intros k qs (n & p & op & data & V & I & D & WB & DE). destruct (PA _ _ I) as (k' & hp & c & page & -> & _). destruct (X _ _ _ _ _ I) as (data' & ps & qs' & D' & _ & M & DE' & FB).
    cbn [stores_records] in D, D'. assert (data' = data) as -> by congruence. rewrite <- (decodes_unique _ _ _ _ PL DE' DE). exists ps. split; [|exact FB].
    destruct (view_added_node _ _ _ _ _ W _ _ _ V) as (_ & NK). destruct (chunk_kept _ _ _ _ _ _ _ _ _ _ CS I) as (x & _ & AK & _). cbn [add_keys] in AK. assert (k' = k) as -> by (unfold n_key in NK; congruence). exists n, p, hp, c, page. auto.
Qed.
(* for a program that adds Points objects *)
Theorem C95_points : forall cd c0 ops l w r od hb, lossless cd -> written cd c0 ops l w -> storable (w_cfg w) -> Z.of_nat (length ops) < 2 ^ 32 - 2 -> h_reclen (c_hdr c0) <= 255 ->
  points_added l -> reader_on (file w) r -> visits_all od -> let h := c_hdr (w_cfg w) in header_bounds (h_min h) (h_max h) = Ok hb ->
  exists r' b, returns (fun fuel => validate_spatial_bounds cd fuel od false r) r' (Ok b) /\
    (b = true <-> forall k ps qs, given_points l k ps -> Forall2 (comes_back (h_scale (c_hdr c0)) (h_offset (c_hdr c0))) ps qs -> in_place h hb k qs).
Proof.
  intros cd c0 ops l w r od hb LS W SB N R255 PA R VA h HB. destruct (points_records cd c0 ops l w W PA) as (RA & GK & KG).
  destruct (C95_validates cd c0 ops l w r od hb LS W SB N R255 RA R VA HB) as (r' & b & E & I). exists r', b. split; [exact E|]. rewrite I. unfold in_place. split.
  - intros V k ps qs G F. destruct (GK k ps G) as (qs' & K & F'). destruct (V _ _ K) as (V1 & V2). split; [exact V1|]. fold h in V2 |- *. revert V2. apply same_places. exact (rounded_once _ _ _ _ _ F' F).
  - intros V k qs K. destruct (KG k qs K) as (ps & G & F). exact (V k ps qs G F).
Qed.
Print Assumptions C95_points.
(* points on the grid that lie in their voxels and within the header's bounds when they are added *)
Theorem C95_grid_points : forall cd c0 ops l w r od hb, lossless cd -> written cd c0 ops l w -> storable (w_cfg w) -> Z.of_nat (length ops) < 2 ^ 32 - 2 -> h_reclen (c_hdr c0) <= 255 ->
  points_added l -> reader_on (file w) r -> visits_all od -> let h := c_hdr (w_cfg w) in header_bounds (h_min h) (h_max h) = Ok hb ->
  (forall k ps, given_points l k ps -> in_place h hb k ps /\ Forall (on_grid (h_scale (c_hdr c0)) (h_offset (c_hdr c0))) ps) ->
  exists r', returns (fun fuel => validate_spatial_bounds cd fuel od false r) r' (Ok true).
Proof.
  intros cd c0 ops l w r od hb LS W SB N R255 PA R VA h HB GP. destruct (C95_points cd c0 ops l w r od hb LS W SB N R255 PA R VA HB) as (r' & b & E & I). exists r'. replace true with b; [exact E|]. apply I.
  intros k ps qs G F. destruct (GP k ps G) as ((V1 & V2) & OG). split; [exact V1|]. revert V2. apply same_places. clear - F OG. induction F as [|p q ps qs CB F IH]; [constructor|]. apply Forall_inv in OG as O1. apply Forall_inv_tail in OG. constructor; [|auto]. now apply O1.
Qed.
Print Assumptions C95_grid_points.
(* a file that validates: a box query at full resolution returns exactly the points of the file that lie in the box *)
Theorem C95_box_query : forall cd c0 ops l w r od hb r1 b hp res, lossless cd -> written cd c0 ops l w -> storable (w_cfg w) -> Z.of_nat (length ops) < 2 ^ 32 - 2 -> h_reclen (c_hdr c0) <= 255 ->
  records_added cd c0 l -> reader_on (file w) r -> visits_all od -> let h := c_hdr (w_cfg w) in header_bounds (h_min h) (h_max h) = Ok hb -> fle res f0 = true ->
  returns (fun fuel => validate_spatial_bounds cd fuel od false r) r1 (Ok true) ->
  exists r2 x qs ks P, returns (fun fuel => get_points_within_box cd b fuel od hp res r) r2 (Ok x) /\ has_points (c_hdr c0) x qs /\
    NoDup ks /\ (forall k, In k ks <-> view_of l k <> None) /\ (forall k, In k ks -> kept_points cd c0 l k (P k)) /\
    Permutation qs (filter (fun p => point_within p b) (flat_map P ks)).
Proof.
  intros cd c0 ops l w r od hb r1 b hp res LS W SB N R255 RA R VA h HB RZ V. destruct (kept_readable cd c0 ops l w r LS W SB N R255 RA R) as (hs & P & S & ST & RD & PH & PK & KP).
  destruct (used_config _ _ _ _ _ _ W SB N R) as ((_ & _ & _ & _ & (_ & _ & _ & _ & MX & MN & _)) & _). destruct (used_header _ _ _ _ _ _ W SB N R) as (F & RL & SC & OF). pose proof W as (_ & _ & _ & L).
  destruct (deepest_exists (file w) _ _ hs S) as (d & D). destruct (C48_depth (file w) hs od r res d S L VA R D) as (r4 & o & DR & B & _). rewrite (B RZ) in DR.
  destruct (C51_points_in_box cd (file w) hs od r P hb r1 b hp res r4 d S L VA R PH RD) as (_ & _ & ps & r3 & y & qs & _ & _ & Q & HP & PM & (ns & (ND & X) & PN)); [rewrite MX, MN; exact HB|exact V|exact DR|].
  assert (KN : forall n m, In n ns -> In m ns -> n_key n = n_key m -> n = m).
  { intros n m A A' E. apply X in A as (A & _), A' as (A' & _). apply ST in A as (a & p & VA1 & ->). apply ST in A' as (a' & p' & VA2 & ->). rewrite E in VA1. rewrite VA1 in VA2. injection VA2 as <- <-. reflexivity. }
  set (PP := fun k => match find (fun n => key_eqb (n_key n) k) ns with Some n => P n | None => [] end).
  assert (PE : forall n, In n ns -> PP (n_key n) = P n).
  { intros n I. unfold PP. destruct (find (fun m => key_eqb (n_key m) (n_key n)) ns) as [m|] eqn:E.
    - apply find_some in E as (J & E). apply key_eqb_eq in E. now rewrite (KN m n J I E).
    - pose proof (find_none _ _ E n I) as Z1. cbv beta in Z1. assert (key_eqb (n_key n) (n_key n) = true) by now apply key_eqb_eq. congruence. }
  exists r3, y, qs, (map n_key ns), PP. split; [exact Q|]. split; [unfold has_points in *; rewrite F, RL in HP; exact HP|]. split; [exact ND|]. split; [|split].
  - intros k. split.
    + intros I. apply in_map_iff in I as (n & <- & I). apply X in I as (I & _). apply ST in I as (m & p & VV & _). congruence.
    + intros NV. destruct (view_of l k) as [(m, p)|] eqn:VV; [|contradiction]. destruct (view_added_node _ _ _ _ _ W _ _ _ VV) as (_ & K). apply in_map_iff. exists (mkNode (n_entry m) p). split; [exact K|].
      assert (SN : stored_nodes hs (mkNode (n_entry m) p)) by (unfold stored_nodes; change (n_key (mkNode (n_entry m) p)) with (n_key m); rewrite K; apply ST; now exists m, p). apply X. split; [exact SN|]. now apply D.
  - intros k I. apply in_map_iff in I as (n & <- & I). rewrite (PE n I). apply PK. now apply X in I.
  - rewrite PM. rewrite flat_map_concat_map, map_map. rewrite (map_ext_in _ P ns PE), <- flat_map_concat_map. clear - PN. induction PN; cbn [filter]; auto.
    + destruct (point_within x b); auto.
    + destruct (point_within x b), (point_within y b); auto. constructor.
    + etransitivity; eauto.
Qed.
Print Assumptions C95_box_query.
(* the points that a Reader returns are on the grid *)
Theorem C95_read_points_on_grid : forall s o p q, exact_region s o -> comes_back s o p q -> on_grid s o q.
Proof.
  intros s o p q (E1 & E2 & E3) (_ & x & y & z & X & Y & Z1 & X' & Y' & Z2) q2 (_ & x2 & y2 & z2 & A & B & C & A' & B' & C').
  assert (RX : forall v a b n, exact_axis a b -> remove_scale_i32 v a b = Ok n -> forall m, remove_scale_i32 (apply_scale_i n a b) a b = Ok m -> m = n).
  { intros v a b n (H1 & H2 & H3 & H4 & H5) RN m RM. apply remove_scale_range in RN. unfold INT32_MIN, INT32_MAX in RN. rewrite (repack_exact n a b) in RM by (try assumption; lia). congruence. }
  rewrite X' in A. rewrite Y' in B. rewrite Z2 in C. rewrite A', B', C', X', Y', Z2.
  rewrite (RX _ _ _ _ E1 X _ A), (RX _ _ _ _ E2 Y _ B), (RX _ _ _ _ E3 Z1 _ C). auto.
Qed.
Print Assumptions C95_read_points_on_grid.

(* ---- two programs ---- *)
Definition placed_b (h : las_header) (hb : box) (k : key) (ps : list point) : bool :=
  box_intersects (box_of_key k (h_min h) (h_max h)) hb && forallb (fun p => point_within p (box_of_key k (h_min h) (h_max h)) && point_within p hb) ps.
Lemma placed_b_ok h hb k ps : placed_b h hb k ps = true -> in_place h hb k ps.
Proof.
  unfold placed_b. intros H. apply andb_prop in H as (H1 & H2). split; [exact H1|]. apply Forall_forall. intros p I. rewrite forallb_forall in H2. apply H2 in I. now apply andb_prop in I.
Qed.
Definition grid_b (s o : vec3) (p : point) : bool :=
  match remove_scale_i32 (p_x p) (vx s) (vx o), remove_scale_i32 (p_y p) (vy s) (vy o), remove_scale_i32 (p_z p) (vz s) (vz o) with
  | Ok x, Ok y, Ok z => same_f (apply_scale_i x (vx s) (vx o)) (p_x p) && same_f (apply_scale_i y (vy s) (vy o)) (p_y p) && same_f (apply_scale_i z (vz s) (vz o)) (p_z p) | _, _, _ => false end.
Lemma grid_b_ok s o p : grid_b s o p = true -> on_grid s o p.
Proof.
  unfold grid_b. intros H q (_ & x & y & z & X & Y & Z1 & X' & Y' & Z2). rewrite X, Y, Z1 in H. apply andb_prop in H as (H & H3). apply andb_prop in H as (H1 & H2). apply same_f_eq in H1, H2, H3. rewrite X', Y', Z2. auto.
Qed.
Definition all_given (t : key -> list point -> bool) (ops : list wop) : bool :=
  forallb (fun op => match op with WAddPoints k hp c _ => match mapM (hget hp) (c_pts c) with Ok ps => t k ps | _ => true end | _ => true end) ops.
Lemma all_given_ok t ops (l : log) : map fst l = ops -> all_given t ops = true -> forall k ps, given_points l k ps -> t k ps = true.
Proof.
  intros M H k ps (n & p & hp & c & page & _ & I & E). unfold all_given in H. rewrite forallb_forall in H. assert (J : In (WAddPoints k hp c page) ops) by (rewrite <- M; apply in_map_iff; eexists; split; [|exact I]; reflexivity).
  specialize (H _ J). cbv beta iota in H. rewrite E in H. exact H.
Qed.
Definition uniform_b (hp : ModelPoints.heap) (c : points) : bool := forallb (fun a => match nth_error hp a with Some p => (p_fmt p =? c_fmt c) && (p_reclen p =? c_reclen c) | None => false end) (c_pts c).
Lemma uniform_b_ok hp c : uniform_b hp c = true -> uniform hp c.
Proof.
  unfold uniform_b. intros H a A. rewrite forallb_forall in H. apply H in A. destruct (nth_error hp a) as [p|] eqn:E; [|discriminate A]. apply andb_prop in A as (A & B). apply Z.eqb_eq in A, B. exists p. auto.
Qed.
Definition points_b (l : log) : bool := forallb (fun x => match x with (WAddPoints _ hp c _, Ok (Some _)) => uniform_b hp c | (_, Ok (Some _)) => false | _ => true end) l.
Lemma points_b_ok l ops : map fst l = ops -> (forall k hp c page, In (WAddPoints k hp c page) ops -> Forall wf_point hp) -> points_b l = true -> points_added l.
Proof.
  intros M WP H op n I. unfold points_b in H. rewrite forallb_forall in H. specialize (H _ I). cbv beta iota in H. destruct op as [| k hp c page | | | | |]; try discriminate H.
  exists k, hp, c, page. split; [reflexivity|]. split; [|now apply uniform_b_ok]. apply (WP k hp c page). rewrite <- M. apply in_map_iff. eexists. split; [|exact I]. reflexivity.
Qed.
Definition with_bounds (n : Z) (e : Z) : las_header := mkHdr 7 1 200 2024 (mkVec (f64_lit n e) (f64_lit n e) (f64_lit n e)) zero_vec (repeat 3 15) unit_vec zero_vec 7 48 0 0 0 0 0 [71; 72] [73] [74; 75; 76] true.
Definition point_at (x : f64) : point := mkPoint 7 48 x f1 f1 65535 0xA3 0x5C 9 (-15000) 17 65000 f0 1 2 3 4 true false (repeat 200 12).
Definition grid_calls : list wop :=
  [WSetHeader (with_bounds 4 0); WAddPoints k0 [point_at f1; point_at (f64_of_Z 4)] (mkPoints 7 48 [1; 0; 1]%nat) k0; WAddPoints (mkKey 1 0 0 0) [point_at f0; point_at (f64_of_Z 2)] (mkPoints 7 48 [0; 1]%nat) k0].
Definition edge_calls : list wop := [WSetHeader (with_bounds 7 (-2)); WAddPoints k0 [point_at (f64_lit 7 (-2))] (mkPoints 7 48 [0]%nat) k0].
Definition bounds_b (t : box -> bool) (h : las_header) : bool := match header_bounds (h_min h) (h_max h) with Ok hb => t hb | _ => false end.
Lemma bounds_b_ok t h : bounds_b t h = true -> exists hb, header_bounds (h_min h) (h_max h) = Ok hb /\ t hb = true.
Proof. unfold bounds_b. destruct (header_bounds (h_min h) (h_max h)) as [hb| |]; intros H; try discriminate H. eauto. Qed.
Definition seen_b (l : log) (k : key) : bool := match view_of l k with Some _ => true | None => false end.
Lemma seen_given cd c0 ops l w k : written cd c0 ops l w -> points_added l -> seen_b l k = true -> exists ps, given_points l k ps.
Proof.
  intros W PA V. unfold seen_b in V. destruct (view_of l k) as [(n, p)|] eqn:E; [|discriminate V]. destruct (view_added_node _ _ _ _ _ W _ _ _ E) as (I & K). apply added_in in I as (op & I). destruct (points_records cd c0 ops l w W PA) as (RA & _ & KG). destruct (RA op n I) as (data & D & WB).
  destruct (PA op n I) as (k' & hp & c & page & -> & WP & U). pose proof W as ((od & cc & v & CS) & _). destruct (ready_base _ _ _ _ _ _ _ _ CS) as (F6 & RB). destruct (accepted_points _ _ _ _ _ _ _ _ _ _ _ _ _ CS I) as (F & RL & data' & P).
  destruct (points_come_back (c_hdr c0) hp c data' WP U F RL (proj1 RB) P) as (WB' & ps & qs & M & DE & FB). destruct (KG k qs) as (ps' & G & _); [exists n, p, (WAddPoints k' hp c page), data'; auto 8|]. eauto.
Qed.
Lemma program_points ops c h : Forall wf_op ops -> Forall positive ops -> (forall k hp c page, In (WAddPoints k hp c page) ops -> Forall wf_point hp) -> ready c -> init_writer c no_overrides = Ok c -> forall keys t,
  check_with c reversed ops (fun l w => settled_b (fun _ => None) l && storable_b (w_cfg w) && opens (file w) && points_b l && forallb (seen_b l) keys && same_v (h_min (c_hdr (w_cfg w))) (h_min h) && same_v (h_max (c_hdr (w_cfg w))) (h_max h) && bounds_b (fun hb => all_given (t hb) ops) (c_hdr (w_cfg w))) = true ->
  exists l w r hb, written verbatim c ops l w /\ storable (w_cfg w) /\ reader_on (file w) r /\ points_added l /\ (forall k, In k keys -> exists ps, given_points l k ps) /\ h_min (c_hdr (w_cfg w)) = h_min h /\ h_max (c_hdr (w_cfg w)) = h_max h /\
    header_bounds (h_min (c_hdr (w_cfg w))) (h_max (c_hdr (w_cfg w))) = Ok hb /\ (forall k ps, given_points l k ps -> t hb k ps = true) /\ map fst l = ops.
Proof.
  intros WF PO WP RD I keys t C. destruct (check_with_ok c reversed ops _ RD I reversed_reorders WF C) as (l & w & S & L & M & T). clear C.
  apply andb_prop in T as (T & T8). apply andb_prop in T as (T & T7). apply andb_prop in T as (T & T6). apply andb_prop in T as (T & T5). apply andb_prop in T as (T & T4). apply andb_prop in T as (T & T3). apply andb_prop in T as (T1 & T2).
  apply settled_b_ok in T1. apply storable_b_ok in T2. apply opens_ok in T3 as (r & _ & R). apply (points_b_ok l ops M WP) in T4. apply same_v_eq in T6, T7. apply bounds_b_ok in T8 as (hb & HB & T8).
  assert (W : written verbatim c ops l w) by (split; [eauto|auto]). exists l, w, r, hb. split; [exact W|]. split; [exact T2|]. split; [exact R|]. split; [exact T4|].
  split; [intros k K; rewrite forallb_forall in T5; exact (seen_given _ _ _ _ _ _ W T4 (T5 k K))|]. split; [exact T6|]. split; [exact T7|]. split; [exact HB|]. split; [|exact M]. now apply all_given_ok with (ops := ops).
Qed.
Lemma point_at_wf x : wf_point (point_at x).
Proof. unfold wf_point, point_at, wf_bytes. repeat constructor; cbn; lia. Qed.
Definition points_arg (op : wop) : list point := match op with WAddPoints _ hp _ _ => hp | _ => [] end.
Lemma points_arg_wf ops : Forall (fun op => Forall wf_point (points_arg op)) ops -> forall k hp c page, In (WAddPoints k hp c page) ops -> Forall wf_point hp.
Proof. intros F k hp c page J. rewrite Forall_forall in F. exact (F _ J). Qed.
Lemma only_points h k hp c p k' hp' c' p' : In (WAddPoints k hp c p) [WSetHeader h; WAddPoints k' hp' c' p'] -> hp' = hp /\ c' = c /\ p' = p.
Proof. intros [J|[J|[]]]; [discriminate J|injection J as -> -> -> ->; auto]. Qed.
Example C95_nonvacuous : exists l w r hb, lossless verbatim /\ written verbatim round_config grid_calls l w /\ storable (w_cfg w) /\ Z.of_nat (length grid_calls) < 2 ^ 32 - 2 /\ h_reclen (c_hdr round_config) <= 255 /\ points_added l /\ reader_on (file w) r /\ visits_all in_order /\
  header_bounds (h_min (c_hdr (w_cfg w))) (h_max (c_hdr (w_cfg w))) = Ok hb /\ (exists ps, given_points l (mkKey 1 0 0 0) ps) /\ (exists ps, given_points l k0 ps) /\ fle f0 f0 = true /\ exact_region (h_scale (c_hdr round_config)) (h_offset (c_hdr round_config)) /\
  (forall k ps, given_points l k ps -> in_place (c_hdr (w_cfg w)) hb k ps /\ Forall (on_grid (h_scale (c_hdr round_config)) (h_offset (c_hdr round_config))) ps).
Proof.
  destruct round_config_ok as (RD & I). 
  destruct (program_points grid_calls round_config (with_bounds 4 0)) with (keys := [mkKey 1 0 0 0; k0]) (t := fun hb k ps => placed_b (with_bounds 4 0) hb k ps && forallb (grid_b unit_vec zero_vec) ps) as (l & w & r & hb & W & SB & R & PA & GV & MN & MX & HB & T & _).
  - unfold grid_calls. repeat constructor; cbn; try lia; try (intros; discriminate).
  - unfold grid_calls. repeat constructor; cbn; lia.
  - apply points_arg_wf. unfold grid_calls. repeat (apply Forall_cons; [cbn [points_arg]; repeat (apply Forall_cons; [apply point_at_wf|]); apply Forall_nil|]). apply Forall_nil.
  - exact RD.
  - exact I.
  - vm_compute. reflexivity.
  - assert (SC : h_scale (c_hdr round_config) = unit_vec) by (apply same_v_eq; vm_compute; reflexivity). assert (OF : h_offset (c_hdr round_config) = zero_vec) by (apply same_v_eq; vm_compute; reflexivity). rewrite SC, OF.
    exists l, w, r, hb. split; [apply verbatim_lossless|]. split; [exact W|]. split; [exact SB|]. split; [cbn; lia|]. split; [vm_compute; discriminate|]. split; [exact PA|]. split; [exact R|]. split; [apply in_order_all|]. split; [exact HB|].
    split; [apply GV; now left|]. split; [apply GV; right; now left|]. split; [vm_compute; reflexivity|]. split; [exact unit_exact|]. intros k ps G. apply T in G. apply andb_prop in G as (G1 & G2). split.
    + unfold placed_b in G1. rewrite <- MN, <- MX in G1. exact (placed_b_ok (c_hdr (w_cfg w)) hb k ps G1).
    + apply Forall_forall. intros p P. rewrite forallb_forall in G2. now apply grid_b_ok, G2.
Qed.
(* desired: a file whose points lay in their voxels and within the header's bounds when they were added validates.
   False of the code: 1.75 is rounded to 2 when it is written, beyond the bound 1.75 that the program set *)
Theorem C95_rounding_refuted : exists l w r hb r', lossless verbatim /\ written verbatim round_config edge_calls l w /\ storable (w_cfg w) /\ points_added l /\ reader_on (file w) r /\
  header_bounds (h_min (c_hdr (w_cfg w))) (h_max (c_hdr (w_cfg w))) = Ok hb /\ (forall k ps, given_points l k ps -> in_place (c_hdr (w_cfg w)) hb k ps) /\
  returns (fun fuel => validate_spatial_bounds verbatim fuel in_order false r) r' (Ok false).
Proof.
  destruct round_config_ok as (RD & I). set (away := point_at (f64_of_Z 2)).
  destruct (program_points edge_calls round_config (with_bounds 7 (-2))) with (keys := [k0]) (t := fun hb k ps => placed_b (with_bounds 7 (-2)) hb k ps && negb (placed_b (with_bounds 7 (-2)) hb k0 [away])) as (l & w & r & hb & W & SB & R & PA & GV & MN & MX & HB & T & M).
  - unfold edge_calls. repeat constructor; cbn; try lia; try (intros; discriminate).
  - unfold edge_calls. repeat constructor; cbn; lia.
  - apply points_arg_wf. unfold edge_calls. repeat (apply Forall_cons; [cbn [points_arg]; repeat (apply Forall_cons; [apply point_at_wf|]); apply Forall_nil|]). apply Forall_nil.
  - exact RD.
  - exact I.
  - vm_compute. reflexivity.
  - assert (SC : h_scale (c_hdr round_config) = unit_vec) by (apply same_v_eq; vm_compute; reflexivity). assert (OF : h_offset (c_hdr round_config) = zero_vec) by (apply same_v_eq; vm_compute; reflexivity).
    assert (PL : forall k ps, placed_b (c_hdr (w_cfg w)) hb k ps = placed_b (with_bounds 7 (-2)) hb k ps) by (intros k ps; unfold placed_b; now rewrite MN, MX).
    destruct (C95_points verbatim round_config edge_calls l w r in_order hb verbatim_lossless W SB ltac:(cbn; lia) ltac:(vm_compute; discriminate) PA R in_order_all HB) as (r' & b & E & IFF).
    exists l, w, r, hb, r'. split; [apply verbatim_lossless|]. split; [exact W|]. split; [exact SB|]. split; [exact PA|]. split; [exact R|]. split; [exact HB|].
    split; [intros k ps G; apply T in G; apply andb_prop in G as (G & _); rewrite <- PL in G; now apply placed_b_ok|].
    assert (B : b <> true).
    { intros B. apply IFF with (k := k0) (qs := [away]) (ps := [point_at (f64_lit 7 (-2))]) in B as (B1 & B2).
      - destruct (GV k0 (or_introl eq_refl)) as (ps & G). apply T in G. apply andb_prop in G as (_ & G). apply negb_true_iff in G. rewrite <- PL in G. unfold placed_b in G. rewrite B1 in G. cbn [andb forallb] in G. apply Forall_inv in B2 as (B2 & B3). rewrite B2, B3 in G. discriminate G.
      - destruct (GV k0 (or_introl eq_refl)) as (ps & (n & p & hp & c & page & V & J & EM)). exists n, p, hp, c, page. split; [exact V|]. split; [exact J|].
        assert (K : In (WAddPoints k0 hp c page) edge_calls) by (rewrite <- M; apply in_map_iff; eexists; split; [|exact J]; reflexivity). unfold edge_calls in K. apply only_points in K as (<- & <- & <-). reflexivity.
      - rewrite SC, OF. constructor; [|constructor]. split; [unfold away, point_at; repeat split|]. exists 2, 1, 1. split; [vm_compute; reflexivity|]. split; [vm_compute; reflexivity|]. split; [vm_compute; reflexivity|]. split; [|split]; apply same_f_eq; vm_compute; reflexivity. }
    destruct b; [contradiction|exact E].
Qed.
Print Assumptions C95_rounding_refuted.
