(* PropCopyValid.v - C98: ValidateSpatialBounds and box queries on copies *)
From Coq Require Import Permutation.
From Verif Require Import Base BaseFacts ModelFloat ModelKey ModelGeom ModelEntry ModelPoint ModelPoints ModelHeader ModelVlr ModelExtents ModelConfig
  ModelStream ModelWriter ModelReader ModelCopy SpecKey SpecPoint SpecPoints SpecConfig SpecHeader SpecWriter SpecHier SpecFile SpecReader SpecData SpecRound SpecCopy SpecOrder SpecTotal SpecValid
  ProofFloat ProofScale ProofKey ProofPoint ProofConfig ProofWriter ProofWriter2 ProofResults ProofReject ProofCount ProofData ProofData2 ProofReader4 ProofReader6 ProofRound ProofOrder ProofTotal ProofCopy ProofMp3
  SampleWriter SampleReader PropWriter PropReader PropData PropRound PropCopy PropTrim PropValid.
Open Scope Z_scope.

(* ---- C98 ---- *)
Section A_copy.
Context (f : bytes) (hs : list page_info) (r : reader) (page : node -> key) (l : list node) (cd : codec) (c c0 : config) (w : writer) (P : node -> list point).
Hypothesis (CF : copies_from f hs r page l) (WH : Forall (whole_chunk f) l) (CC : copy_config (r_cfg r) = Ok c) (CP : copying copy_nodes cd page l r c no_overrides c0 w).
Hypothesis (ST : storable c0) (LL : Z.of_nat (length l) < 2 ^ 32 - 2) (R255 : h_reclen (c_hdr c0) <= 255).
Hypothesis (RD : readable cd (c_hdr (r_cfg r)) f hs P) (SC : forall n, In n l -> exists data, chunk_records cd (c_hdr (r_cfg r)) f n data).
Lemma same_config : c0 = r_cfg r.
Proof.
  destruct CF as (SR & FL & RO & OK). destruct (reader_cfg f hs r SR FL RO) as (isf & r0 & O & RC). pose proof (opened_copc _ _ _ O) as HC. rewrite <- RC in HC. apply (copy_config_id _ _ HC) in CC. subst c.
  destruct CP as (w0 & w1 & r' & wod & OW & IW & _). unfold init_writer in IW. cbn [any_override no_overrides is_some ov_fmt ov_scale ov_offset ov_wkt ov_ebs ov_ext orb] in IW. now apply (copy_config_id _ _ HC) in IW.
Qed.
(* the copy has the points of the copied nodes, and the bounds and header of the source *)
Lemma copy_readable r2 : reader_on (file w) r2 -> exists hs2 P2, copc_pages (file w) hs2 /\ Z.of_nat (length (file w)) < 2 ^ 63 /\ readable cd (c_hdr (r_cfg r2)) (file w) hs2 P2 /\ plain_header (c_hdr (r_cfg r2)) /\
  (forall m, stored_nodes hs2 m -> exists n, In n l /\ n_key m = n_key n /\ P2 m = P n) /\ (forall n, In n l -> exists m, stored_nodes hs2 m /\ n_key m = n_key n /\ P2 m = P n) /\
  same_settings (c_hdr (r_cfg r)) (c_hdr (r_cfg r2)).
Proof.
  intros R2. destruct (C84_configuration _ _ _ _ _ _ _ _ _ _ CF WH CC CP ST LL R2) as (_ & _ & _ & _ & SS & _). destruct (copied _ _ _ _ _ _ _ _ _ _ CF WH CP) as (lg & MF & OKS & W & H1 & H2 & H3 & H4).
  assert (ST' : storable (w_cfg w)) by (unfold storable; rewrite H1, H2, H3, H4; exact ST). destruct (used_header _ _ _ _ _ _ W ST' ltac:(rewrite map_length; lia) R2) as (F & RL & SCL & OF).
  destruct (written_reader _ _ _ _ _ _ W R2) as (hs2 & S & L & STN & _ & G). pose proof W as ((od & cc & vv & CS) & _). destruct (ready_base _ _ _ _ _ _ _ _ CS) as (F6 & RB). pose proof (ProofPoint.las_base_range (h_fmt (c_hdr c0))) as LB.
  pose proof CF as (SR & FL & RO & OK). pose proof same_config as C0.
  (* one copied node *)
  assert (ONE : forall n, In n l -> exists m, stored_nodes hs2 m /\ n_key m = n_key n /\ node_points cd (c_hdr (r_cfg r2)) (file w) m (P n)).
  { intros n I. destruct (log_view f hs page (chunk_in f) l SR OK lg MF OKS n I) as (nd & V & J). destruct (SC n I) as (data & CR). rewrite Forall_forall in OK, WH. destruct (OK n I) as (SN & CN & _).
    assert (CR' : chunk_records cd (c_hdr c0) f n data) by (rewrite C0; exact CR). destruct (chunk_kept _ _ _ _ _ _ _ _ _ _ CS J) as (x & CO & AK & SZ & BX). unfold copy_op in CO, AK. cbn [chunk_of add_keys] in CO, AK. assert (x = chunk_in f n) as -> by congruence.
    destruct (chunk_size f hs page SR n SN (WH n I)) as (LC & CN'). assert (K : n_key nd = n_key n) by (unfold n_key at 1; congruence).
    assert (NS : stored_nodes hs2 (mkNode (n_entry nd) (page n))) by (unfold stored_nodes, n_key; cbn [n_entry]; fold (n_key nd); rewrite K; apply STN; now exists nd, (page n)).
    exists (mkNode (n_entry nd) (page n)). split; [exact NS|]. split; [exact K|]. assert (HS : holds_records cd (c_hdr (r_cfg r)) f n data) by (apply (chunk_holds cd f hs); auto; [lia|rewrite <- C0; exact F6|rewrite <- C0; lia]).
    destruct (RD n SN) as (data' & HR & D). rewrite (one_content _ _ _ _ _ _ HR HS) in D. exists data. split; [|eapply same_decodes; [..|exact D]; rewrite <- C0; congruence].
    assert (CE : e_count (n_entry nd) = e_count (n_entry n)) by congruence.
    apply (chunk_holds cd (file w) hs2); auto.
    - exact (chunk_within _ _ _ _ _ _ _ _ _ _ (page n) CS J).
    - cbn [n_entry]. lia.
    - rewrite F. exact F6.
    - rewrite F, RL. lia.
    - destruct CR' as (D1 & D2 & D3). unfold chunk_records. cbn [n_entry]. rewrite F, RL, CE. split; [exact D1|]. split; [exact D2|]. assert (CI : chunk_in (file w) (mkNode (n_entry nd) (page n)) = chunk_in f n) by exact BX. rewrite CI. exact D3. }
  assert (BACK : forall m, stored_nodes hs2 m -> exists n, In n l /\ n_key m = n_key n /\ node_points cd (c_hdr (r_cfg r2)) (file w) m (P n)).
  { intros m SM. pose proof SM as SM0. unfold stored_nodes in SM. apply STN in SM as (nd & p & V & EM). destruct (log_some _ _ _ _ MF OKS _ _ _ V) as (n & I & K & _). destruct (ONE n I) as (m' & SM' & K' & NP). assert (m = m') as -> by (eapply (stored_unique (file w) hs2); eauto; congruence). exists n. split; [exact I|]. split; [exact K'|exact NP]. }
  destruct (all_nodes_good (file w) _ _ hs2 S L in_order r2 in_order_all G) as (r3 & na & _ & _ & _ & (_ & NA) & _).
  destruct (choose node_dec (fun m ps => exists n, In n l /\ n_key m = n_key n /\ ps = P n /\ node_points cd (c_hdr (r_cfg r2)) (file w) m ps) [] na) as (P2 & HP2).
  { intros m I. apply NA in I. destruct (BACK m I) as (n & X & K & NP). exists (P n), n. auto. }
  exists hs2, P2. split; [exact S|]. split; [exact L|]. split; [|split; [|split; [|split; [|exact SS]]]].
  - intros m SM. apply NA in SM. destruct (HP2 m SM) as (n & _ & _ & _ & NP). exact NP.
  - unfold plain_header. rewrite F, RL. split; [exact F6|lia].
  - intros m SM. apply NA in SM. destruct (HP2 m SM) as (n & I & K & E & _). exists n. auto.
  - intros n I. destruct (ONE n I) as (m & SM & K & _). exists m. split; [exact SM|]. split; [exact K|]. apply NA in SM. destruct (HP2 m SM) as (n' & I' & K' & E & _). rewrite E. f_equal. rewrite Forall_forall in OK. destruct (OK n I) as (SN & _), (OK n' I') as (SN' & _). eapply (stored_unique f hs); eauto. congruence.
Qed.
End A_copy.

Lemma returns_fun {A} (F : nat -> call A) r1 r2 x y : returns F r1 x -> returns F r2 y -> r1 = r2 /\ x = y.
Proof. intros (n & N) (m & M). specialize (N (Nat.max n m) (Nat.le_max_l _ _)). specialize (M (Nat.max n m) (Nat.le_max_r _ _)). split; congruence. Qed.
(* a copy of a file that validates, validates *)
Theorem C98_copy_validates : forall cd f hs r page l c c0 w P od od2 r1 r2 hb, copies_from f hs r page l -> Forall (whole_chunk f) l -> copy_config (r_cfg r) = Ok c ->
  copying copy_nodes cd page l r c no_overrides c0 w -> storable c0 -> Z.of_nat (length l) < 2 ^ 32 - 2 -> h_reclen (c_hdr c0) <= 255 ->
  let h := c_hdr (r_cfg r) in readable cd h f hs P -> (forall n, In n l -> exists data, chunk_records cd h f n data) -> header_bounds (h_min h) (h_max h) = Ok hb ->
  visits_all od -> visits_all od2 -> reader_on (file w) r2 ->
  returns (fun fuel => validate_spatial_bounds cd fuel od false r) r1 (Ok true) -> exists r3, returns (fun fuel => validate_spatial_bounds cd fuel od2 false r2) r3 (Ok true).
Proof.
  intros cd f hs r page l c c0 w P od od2 r1 r2 hb CF WH CC CP ST LL R255 h RD SC HB VA VA2 R2 V.
  destruct (copy_readable f hs r page l cd c c0 w P CF WH CC CP ST LL R255 RD SC r2 R2) as (hs2 & P2 & S2 & L2 & RD2 & _ & BK & _ & SS). pose proof CF as (SR & FL & RO & OK). destruct SS as (_ & _ & _ & _ & MX & MN & _).
  destruct (C52_validate cd f hs od r P hb false SR FL VA RO RD HB ltac:(discriminate)) as (r4 & b & E & I). pose proof (returns_fun _ _ _ _ _ V E) as (_ & EB). assert (b = true) as -> by congruence.
  destruct (C52_validate cd (file w) hs2 od2 r2 P2 hb false S2 L2 VA2 R2 RD2) as (r5 & b2 & E2 & I2); [rewrite MX, MN; exact HB|intros X; discriminate X|]. assert (b2 = true) as ->; [|exists r5; exact E2].
  apply I2. intros m SM. destruct (BK m SM) as (n & J & K & EP). rewrite Forall_forall in OK. destruct (OK n J) as (SN & _). pose proof (proj1 I eq_refl n SN) as Q. unfold node_box in *. rewrite K, EP, MX, MN. exact Q.
Qed.
Print Assumptions C98_copy_validates.
(* with every node, ValidateSpatialBounds says the same of the copy as of the source *)
Theorem C98_same_answer : forall cd f hs r page l c c0 w P od od2 r2 hb, copies_from f hs r page l -> Forall (whole_chunk f) l -> copy_config (r_cfg r) = Ok c ->
  copying copy_nodes cd page l r c no_overrides c0 w -> storable c0 -> Z.of_nat (length l) < 2 ^ 32 - 2 -> h_reclen (c_hdr c0) <= 255 ->
  let h := c_hdr (r_cfg r) in readable cd h f hs P -> (forall n, In n l -> exists data, chunk_records cd h f n data) -> header_bounds (h_min h) (h_max h) = Ok hb ->
  visits_all od -> visits_all od2 -> reader_on (file w) r2 -> (forall n, stored_nodes hs n -> In n l) ->
  exists r1 r3 b, returns (fun fuel => validate_spatial_bounds cd fuel od false r) r1 (Ok b) /\ returns (fun fuel => validate_spatial_bounds cd fuel od2 false r2) r3 (Ok b).
Proof.
  intros cd f hs r page l c c0 w P od od2 r2 hb CF WH CC CP ST LL R255 h RD SC HB VA VA2 R2 ALL.
  destruct (copy_readable f hs r page l cd c c0 w P CF WH CC CP ST LL R255 RD SC r2 R2) as (hs2 & P2 & S2 & L2 & RD2 & _ & BK & FW & SS). pose proof CF as (SR & FL & RO & OK). destruct SS as (_ & _ & _ & _ & MX & MN & _).
  destruct (C52_validate cd f hs od r P hb false SR FL VA RO RD HB ltac:(discriminate)) as (r4 & b & E & I).
  destruct (C52_validate cd (file w) hs2 od2 r2 P2 hb false S2 L2 VA2 R2 RD2) as (r5 & b2 & E2 & I2); [rewrite MX, MN; exact HB|intros X; discriminate X|].
  exists r4, r5, b. split; [exact E|]. replace b with b2; [exact E2|].
  assert (Q : b2 = true <-> b = true).
  { rewrite I, I2. split.
    - intros Q n SN. destruct (FW n (ALL n SN)) as (m & SM & K & EP). pose proof (Q m SM) as X. unfold node_box in *. rewrite K, EP, MX, MN in X. exact X.
    - intros Q m SM. destruct (BK m SM) as (n & J & K & EP). rewrite Forall_forall in OK. destruct (OK n J) as (SN & _). pose proof (Q n SN) as X. unfold node_box in *. rewrite K, EP, MX, MN. exact X. }
  clear - Q. destruct b, b2; try reflexivity; [exact (proj2 Q eq_refl)|symmetry; exact (proj1 Q eq_refl)].
Qed.
Print Assumptions C98_same_answer.
(* a box query on the copy of a file that validates: the points of the copied nodes that lie in the box *)
Lemma filter_perm {A} (g : A -> bool) : forall l l', Permutation l l' -> Permutation (filter g l) (filter g l').
Proof. induction 1; cbn [filter]; [auto|destruct (g x); auto|destruct (g x), (g y); auto; constructor|etransitivity; eauto]. Qed.
Theorem C98_box_query : forall cd f hs r page l c c0 w P od od2 r1 r2 hb b hp res, copies_from f hs r page l -> Forall (whole_chunk f) l -> copy_config (r_cfg r) = Ok c ->
  copying copy_nodes cd page l r c no_overrides c0 w -> storable c0 -> Z.of_nat (length l) < 2 ^ 32 - 2 -> h_reclen (c_hdr c0) <= 255 ->
  let h := c_hdr (r_cfg r) in readable cd h f hs P -> (forall n, In n l -> exists data, chunk_records cd h f n data) -> header_bounds (h_min h) (h_max h) = Ok hb ->
  visits_all od -> visits_all od2 -> reader_on (file w) r2 -> NoDup l -> fle res f0 = true ->
  returns (fun fuel => validate_spatial_bounds cd fuel od false r) r1 (Ok true) ->
  exists r3 x qs, returns (fun fuel => get_points_within_box cd b fuel od2 hp res r2) r3 (Ok x) /\ has_points h x qs /\ Permutation qs (filter (fun p => point_within p b) (flat_map P l)).
Proof.
  intros cd f hs r page l c c0 w P od od2 r1 r2 hb b hp res CF WH CC CP ST LL R255 h RD SC HB VA VA2 R2 ND RZ V.
  destruct (C98_copy_validates cd f hs r page l c c0 w P od od2 r1 r2 hb CF WH CC CP ST LL R255 RD SC HB VA VA2 R2 V) as (r3 & V2).
  destruct (copy_readable f hs r page l cd c c0 w P CF WH CC CP ST LL R255 RD SC r2 R2) as (hs2 & P2 & S2 & L2 & RD2 & PH2 & BK & FW & SS). pose proof CF as (SR & FL & RO & OK). destruct SS as (_ & _ & _ & _ & MX & MN & _ & _ & _ & F & RL & _).
  destruct (deepest_exists (file w) _ _ hs2 S2) as (d & D). destruct (C48_depth (file w) hs2 od2 r2 res d S2 L2 VA2 R2 D) as (r4 & o & DR & B & _). rewrite (B RZ) in DR.
  destruct (C51_points_in_box cd (file w) hs2 od2 r2 P2 hb r3 b hp res r4 d S2 L2 VA2 R2 PH2 RD2) as (_ & _ & ps & r5 & y & qs & _ & _ & Q & HP & PM & (ns & (NDK & X) & PN)); [rewrite MX, MN; exact HB|exact V2|exact DR|].
  exists r5, y, qs. split; [exact Q|]. split; [unfold has_points in *; rewrite F, RL in HP; exact HP|]. rewrite PM. apply filter_perm. rewrite PN.
  (* the copied nodes and the nodes of the copy have the same keys, each once *)
  rewrite Forall_forall in OK. assert (U : forall n n', In n l -> In n' l -> n_key n = n_key n' -> n = n') by (intros n n' I J E; destruct (OK n I) as (SN & _), (OK n' J) as (SN' & _); eapply (stored_unique f hs); eauto).
  set (PP := fun k => match find (fun n => key_eqb (n_key n) k) l with Some n => P n | None => [] end).
  assert (PE : forall n, In n l -> PP (n_key n) = P n).
  { intros n I. unfold PP. destruct (find (fun m => key_eqb (n_key m) (n_key n)) l) as [m|] eqn:E.
    - apply find_some in E as (J & E). apply key_eqb_eq in E. now rewrite (U m n J I E).
    - pose proof (find_none _ _ E n I) as Z1. cbv beta in Z1. assert (key_eqb (n_key n) (n_key n) = true) by now apply key_eqb_eq. congruence. }
  assert (PE2 : forall m, In m ns -> PP (n_key m) = P2 m) by (intros m I; apply X in I as (I & _); destruct (BK m I) as (n & J & K & ->); rewrite K; now apply PE).
  assert (KP : Permutation (map n_key ns) (map n_key l)).
  { apply NoDup_Permutation; [exact NDK| |].
    - clear - ND U. induction l as [|a l IH]; cbn [map]; [constructor|]. apply NoDup_cons_iff in ND as (NI & ND). constructor; [|apply IH; [exact ND|intros; apply U; auto; now right]]. intros I. apply in_map_iff in I as (n & E & I). apply NI. rewrite <- (U n a); auto; [now right|now left].
    - intros k. split; intros I; apply in_map_iff in I as (n & <- & I).
      + apply X in I as (I & _). destruct (BK n I) as (n' & J & K & _). rewrite K. now apply in_map.
      + destruct (FW n I) as (m & SM & K & _). rewrite <- K. apply in_map. apply X. split; [exact SM|]. now apply D. }
  rewrite !flat_map_concat_map, <- (map_ext_in _ P2 ns PE2), <- (map_ext_in _ P l PE), <- !(map_map n_key PP), <- !flat_map_concat_map. apply Permutation_flat_map. exact KP.
Qed.
Print Assumptions C98_box_query.
(* the same answer as the source gives, when every node was copied *)
Theorem C98_same_query : forall cd f hs r page l c c0 w P od od2 r1 r2 hb b hp hp2 res res2, copies_from f hs r page l -> Forall (whole_chunk f) l -> copy_config (r_cfg r) = Ok c ->
  copying copy_nodes cd page l r c no_overrides c0 w -> storable c0 -> Z.of_nat (length l) < 2 ^ 32 - 2 -> h_reclen (c_hdr c0) <= 255 ->
  let h := c_hdr (r_cfg r) in readable cd h f hs P -> (forall n, In n l -> exists data, chunk_records cd h f n data) -> header_bounds (h_min h) (h_max h) = Ok hb ->
  visits_all od -> visits_all od2 -> reader_on (file w) r2 -> NoDup l -> (forall n, stored_nodes hs n -> In n l) -> fle res f0 = true -> fle res2 f0 = true ->
  returns (fun fuel => validate_spatial_bounds cd fuel od false r) r1 (Ok true) ->
  exists r3 x ps r4 y qs, returns (fun fuel => get_points_within_box cd b fuel od hp res r) r3 (Ok x) /\ has_points h x ps /\
    returns (fun fuel => get_points_within_box cd b fuel od2 hp2 res2 r2) r4 (Ok y) /\ has_points h y qs /\ Permutation ps qs.
Proof.
  intros cd f hs r page l c c0 w P od od2 r1 r2 hb b hp hp2 res res2 CF WH CC CP ST LL R255 h RD SC HB VA VA2 R2 ND ALL RZ RZ2 V.
  destruct (C98_box_query cd f hs r page l c c0 w P od od2 r1 r2 hb b hp2 res2 CF WH CC CP ST LL R255 RD SC HB VA VA2 R2 ND RZ2 V) as (r4 & y & qs & Q2 & H2 & M2).
  pose proof CF as (SR & FL & RO & OK). assert (PH : plain_header h).
  { pose proof (same_config f hs r page l cd c c0 w CF CC CP) as C0. destruct (copied _ _ _ _ _ _ _ _ _ _ CF WH CP) as (lg & _ & _ & W & _). pose proof W as ((od' & cc & vv & CS) & _). destruct (ready_base _ _ _ _ _ _ _ _ CS) as (F6 & RB). unfold plain_header, h. rewrite <- C0. split; [exact F6|lia]. }
  destruct (deepest_exists f _ _ hs SR) as (d & D). destruct (C48_depth f hs od r res d SR FL VA RO D) as (r6 & o & DR & B & _). rewrite (B RZ) in DR.
  destruct (C51_points_in_box cd f hs od r P hb r1 b hp res r6 d SR FL VA RO PH RD HB V DR) as (_ & _ & ps & r5 & x & ps' & _ & _ & Q & HP & PM & (ns & (NDK & X) & PN)).
  exists r5, x, ps', r4, y, qs. split; [exact Q|]. split; [exact HP|]. split; [exact Q2|]. split; [exact H2|]. rewrite PM, M2. apply filter_perm. rewrite PN. apply Permutation_flat_map. apply NoDup_Permutation.
  - now apply NoDup_map_inv in NDK.
  - exact ND.
  - intros n. rewrite X. rewrite Forall_forall in OK. split; [intros (A & _); now apply ALL|]. intros I. destruct (OK n I) as (SN & _). split; [exact SN|now apply D].
Qed.
Print Assumptions C98_same_query.

(* ---- the eight-cube sample file and its copy ---- *)
Definition ready_b (c : config) : bool :=
  h_copc (c_hdr c) && (6 <=? h_fmt (c_hdr c)) && (h_fmt (c_hdr c) <=? 8) && (xs_fmt (c_exts c) =? h_fmt (c_hdr c)) && (Z.of_nat (length (c_ebs c)) <? 65536) &&
  (Z.of_nat (length (xs_items (c_exts c))) =? las_dims (xs_fmt (c_exts c)) + Z.of_nat (length (c_ebs c))) &&
  forallb (fun e => negb (fgt (ex_min e) (ex_max e)) && negb (flt (ex_var e) f0)) (xs_items (c_exts c)) &&
  forallb (fun e => (0 <=? eb_type e) && (eb_type e <=? 30)) (c_ebs c) && (h_reclen (c_hdr c) =? las_base (h_fmt (c_hdr c)) + eb_total (c_ebs c)).
Lemma ready_b_ok c : ready_b c = true -> good_config c.
Proof.
  unfold ready_b. intros H. apply andb_prop in H as (H & H9). apply andb_prop in H as (H & H8). apply andb_prop in H as (H & H7). apply andb_prop in H as (H & H6). apply andb_prop in H as (H & H5). apply andb_prop in H as (H & H4). apply andb_prop in H as (H & H3). apply andb_prop in H as (H1 & H2).
  apply Z.leb_le in H2, H3. apply Z.eqb_eq in H4, H6, H9. apply Z.ltb_lt in H5. rewrite forallb_forall in H7, H8. split; [exact H1|]. split; [split; assumption|]. split; [exact H4|]. split; [split; [lia|split; [lia|exact H6]]|]. split; [|split; [|exact H9]].
  - apply Forall_forall. intros e I. apply H7 in I. apply andb_prop in I as (A & B). apply negb_true_iff in A, B. split; assumption.
  - apply Forall_forall. intros e I. apply H8 in I. apply andb_prop in I as (A & B). apply Z.leb_le in A, B. split; assumption.
Qed.
Definition below (n v : Z) : bool := (0 <=? v) && (v <? n).
Lemma below_ok n v : below n v = true -> 0 <= v < n.
Proof. intros H. apply andb_prop in H as (A & B). apply Z.leb_le in A. apply Z.ltb_lt in B. lia. Qed.
Lemma all_below n l : forallb (below n) l = true -> Forall (fun v => 0 <= v < n) l.
Proof. intros H. apply Forall_forall. intros v I. rewrite forallb_forall in H. now apply below_ok, H. Qed.
Definition wf_config_b (c : config) : bool :=
  let h := c_hdr c in forallb (below 65536) [h_src h; h_enc h; h_day h; h_year h; h_reclen h] && (length (h_pbr h) =? 15)%nat && forallb (below (2 ^ 64)) (h_pbr h) &&
  forallb (below (2 ^ 64)) [h_pcount h; h_evoff h; i_root_off (c_info c); i_root_size (c_info c)] && forallb (below (2 ^ 32)) [h_poff h; h_vlrs h; h_evcnt h] && forallb (fun s => forallb (below 256) s) [h_guid h; h_sys h; h_gen h] &&
  forallb (fun e => below 65536 (eb_res e) && forallb (below 256) [eb_type e; eb_options e] && below (2 ^ 32) (eb_unused e) && (length (eb_nodata e) =? 24)%nat && (length (eb_min e) =? 24)%nat && (length (eb_max e) =? 24)%nat && (length (eb_scale e) =? 24)%nat && (length (eb_offset e) =? 24)%nat) (c_ebs c).
Lemma wf_config_b_ok c : ready_b c = true -> wf_config_b c = true -> ready c.
Proof.
  intros G H. apply ready_b_ok in G. pose proof G as (_ & F6 & _). unfold wf_config_b in H. cbv zeta in H. apply andb_prop in H as (H & H7). apply andb_prop in H as (H & H6). apply andb_prop in H as (H & H5). apply andb_prop in H as (H & H4). apply andb_prop in H as (H & H3). apply andb_prop in H as (H1 & H2).
  apply all_below in H1, H3, H4, H5. apply Nat.eqb_eq in H2. pose proof (Forall_inv H1) as A1. apply Forall_inv_tail in H1. pose proof (Forall_inv H1) as A2. apply Forall_inv_tail in H1. pose proof (Forall_inv H1) as A3. apply Forall_inv_tail in H1. pose proof (Forall_inv H1) as A4. apply Forall_inv_tail in H1. pose proof (Forall_inv H1) as A5. clear H1.
  pose proof (Forall_inv H4) as B1. apply Forall_inv_tail in H4. pose proof (Forall_inv H4) as B2. apply Forall_inv_tail in H4. pose proof (Forall_inv H4) as B3. apply Forall_inv_tail in H4. pose proof (Forall_inv H4) as B4. clear H4.
  pose proof (Forall_inv H5) as C1. apply Forall_inv_tail in H5. pose proof (Forall_inv H5) as C2. apply Forall_inv_tail in H5. pose proof (Forall_inv H5) as C3. clear H5.
  assert (H6' : Forall wf_bytes [h_guid (c_hdr c); h_sys (c_hdr c); h_gen (c_hdr c)]) by (apply Forall_forall; intros s I; rewrite forallb_forall in H6; apply H6 in I; now apply all_below).
  pose proof (Forall_inv H6') as D1. apply Forall_inv_tail in H6'. pose proof (Forall_inv H6') as D2. apply Forall_inv_tail in H6'. pose proof (Forall_inv H6') as D3.
  split; [exact G|]. split; [unfold wf_hdr; auto 20 with zarith|]. split; [split; assumption|]. apply Forall_forall. intros e I. rewrite forallb_forall in H7. apply H7 in I.
  apply andb_prop in I as (I & E8). apply andb_prop in I as (I & E7). apply andb_prop in I as (I & E6). apply andb_prop in I as (I & E5). apply andb_prop in I as (I & E4). apply andb_prop in I as (I & E3). apply andb_prop in I as (E1 & E2).
  apply below_ok in E1, E3. apply all_below in E2. apply Nat.eqb_eq in E4, E5, E6, E7, E8. pose proof (Forall_inv E2) as T1. apply Forall_inv_tail in E2. pose proof (Forall_inv E2) as T2. clear - E1 T1 T2 E3 E4 E5 E6 E7 E8. unfold wf_eb. split; [exact E1|]. split; [exact T1|]. split; [exact T2|]. split; [exact E3|]. auto.
Qed.
Definition copy_test_same (r : reader) (l : list node) : bool :=
  match copy_config (r_cfg r) with Ok c => match init_writer c no_overrides with Ok c0 => ready_b c0 && wf_config_b c0 && storable_b c0 && (h_reclen (c_hdr c0) <=? 255) && copy_test r l c no_overrides (fun w => opens (file w)) | _ => false end | _ => false end.
Lemma same_runs : match open_reader true good_file with Ok r => copy_test_same r (node_list good_pages) && copy_test_same r (firstn 2 (node_list good_pages)) | _ => false end = true.
Proof. vm_compute. reflexivity. Qed.
Lemma copy_test_same_ok r l : copy_test_same r l = true -> exists c c0 w r2, copy_config (r_cfg r) = Ok c /\ copying copy_nodes verbatim n_page l r c no_overrides c0 w /\ storable c0 /\ h_reclen (c_hdr c0) <= 255 /\ reader_on (file w) r2.
Proof.
  unfold copy_test_same. destruct (copy_config (r_cfg r)) as [c| |]; try discriminate. destruct (init_writer c no_overrides) as [c0| |] eqn:IW; try discriminate. intros H. apply andb_prop in H as (H & T). apply andb_prop in H as (H & RL). apply andb_prop in H as (H & SB). apply andb_prop in H as (RB & WB).
  destruct (copy_test_ok r l c no_overrides c0 _ IW (wf_config_b_ok _ RB WB) T) as (w & CP & OP). apply opens_ok in OP as (r2 & _ & R2). exists c, c0, w, r2. split; [reflexivity|]. split; [exact CP|]. split; [now apply storable_b_ok|]. split; [now apply Z.leb_le|exact R2].
Qed.
Example C98_nonvacuous : exists f hs r l l' c w w' c0 P r1 r2 r2' hb, copies_from f hs r n_page l /\ Forall (whole_chunk f) l /\ copy_config (r_cfg r) = Ok c /\ copying copy_nodes verbatim n_page l r c no_overrides c0 w /\ copying copy_nodes verbatim n_page l' r c no_overrides c0 w' /\ storable c0 /\
  h_reclen (c_hdr c0) <= 255 /\ readable verbatim (c_hdr (r_cfg r)) f hs P /\ (forall n, In n l -> exists data, chunk_records verbatim (c_hdr (r_cfg r)) f n data) /\ header_bounds (h_min (c_hdr (r_cfg r))) (h_max (c_hdr (r_cfg r))) = Ok hb /\
  reader_on (file w) r2 /\ reader_on (file w') r2' /\ NoDup l /\ (forall n, stored_nodes hs n -> In n l) /\ length l = 3%nat /\ l' = firstn 2 l /\ returns (fun fuel => validate_spatial_bounds verbatim fuel in_order false r) r1 (Ok true) /\ (exists n, In n l /\ length (P n) = 3%nat).
Proof.
  destruct good_ok as (r & hb & S & L & O & R & PH & RD & HB & SV & _ & (n3 & N3 & P3) & _). cbv zeta in *. destruct copy_source as (r' & O' & CF & WH). assert (r' = r) as -> by congruence. pose proof same_runs as K. pose proof all_held as AH. rewrite O in K, AH. pose proof (distinct_b_ok _ good_distinct) as ND. pose proof good_length as GL.
  assert (AL : forall n, stored_nodes good_pages n -> In n (node_list good_pages)) by (intros n; apply node_list_in).
  destruct (C52_validate verbatim good_file good_pages in_order r _ hb false S L in_order_all R RD HB ltac:(discriminate)) as (r1 & b & V & IV). rewrite (proj2 IV SV) in V. clear IV.
  revert S L O R PH RD HB SV N3 P3 CF WH K AH ND GL AL V. generalize (node_list good_pages). generalize good_pages good_file. intros hs f l S L O R PH RD HB SV N3 P3 CF WH K AH ND GL AL V.
  apply andb_prop in K as (K1 & K2). apply copy_test_same_ok in K1 as (c & c0 & w & r2 & CC & CP & ST & RL & R2). apply copy_test_same_ok in K2 as (c' & c0' & w' & r2' & CC' & CP' & _ & _ & R2'). assert (c' = c) as -> by congruence.
  assert (c0' = c0) as -> by (destruct CP as (? & ? & ? & ? & _ & IW & _), CP' as (? & ? & ? & ? & _ & IW' & _); congruence).
  exists f, hs, r, l, (firstn 2 l), c, w, w', c0, (points_of (c_hdr (r_cfg r)) f), r1, r2, r2', hb. split; [exact CF|]. split; [exact WH|]. split; [exact CC|]. split; [exact CP|]. split; [exact CP'|]. split; [exact ST|]. split; [exact RL|]. split; [exact RD|].
  split; [intros n I; rewrite forallb_forall in AH; eexists; apply holds_b_ok; now apply AH|]. split; [exact HB|]. split; [exact R2|]. split; [exact R2'|]. split; [exact ND|]. split; [exact AL|]. split; [exact GL|]. split; [reflexivity|]. split; [exact V|]. exists n3. split; [now apply AL|exact P3].
Qed.
