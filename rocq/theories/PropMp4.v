(* PropMp4.v - C56 for a LazWriter *)
From Coq Require Import Permutation.
From Verif Require Import Base BaseFacts ModelFloat ModelKey ModelGeom ModelEntry ModelPoint ModelPoints ModelHeader ModelVlr ModelExtents ModelConfig
  ModelStream ModelWriter ModelReader ModelLazReader ModelPickle ModelMp SpecKey SpecPoint SpecPoints SpecConfig SpecHeader SpecWriter SpecHier SpecFile SpecLaz SpecReader SpecData SpecRound SpecLazRound SpecMp
  ProofFloat ProofGeom ProofKey ProofPickle ProofPoint ProofPoints ProofConfig ProofStream ProofWriter ProofWriter2 ProofWriter4 ProofLaz ProofLazRound ProofData ProofReader4 ProofReader6 ProofOpen ProofRound ProofMp ProofMp2 ProofMp3 ProofMp4 ProofMp5 ProofMp6
  SampleWriter SampleReader PropWriter PropReader PropData PropRound PropLaz PropMp SampleMp PropMp2 PropMp3.
Open Scope Z_scope.

(* a program that constructs a LazWriter with configuration z, calls transform_multithreaded on it, and closes it *)
Definition laz_program (cd : codec) tf (upd : bool) od nodes res chunk (r : reader) (p : pool) (z : laz_config) (w : laz_writer) : Prop :=
  exists w0 w1, open_laz_writer None z = Ok w0 /\ laz_ready z /\ transform_laz cd tf upd od nodes res chunk r p w0 w1 (Ok tt) /\ close_laz cd w1 = (w, Ok tt) /\ Z.of_nat (length (laz_file w)) < 2 ^ 64.

Lemma brought_records cd upd hw T : 6 <= h_fmt hw <= 8 -> las_base (h_fmt hw) <= h_reclen hw -> forall l ds pss, Forall2 (fun n d => brings cd upd hw (T n) n d) l ds -> Forall (fun d => dn_count d <= INT32_MAX) (stored_ones ds) ->
  (forall n, In n l -> fits_header hw (T n)) -> Forall2 (fun n => points_in (T n)) l pss ->
  exists datas bs, Forall2 (laz_stores cd hw) (map laz_op (stored_ones ds)) datas /\ concat datas = concat bs /\ wf_bytes (concat datas) /\
    Forall2 (fun p b => point_pack p (h_scale hw) (h_offset hw) = Ok b) (concat pss) bs /\ Forall wf_point (concat pss) /\ Forall (fun p => p_fmt p = h_fmt hw /\ p_reclen p = h_reclen hw) (concat pss).
Proof.
  intros F6 RB l ds pss FB. revert pss. induction FB as [|n d l ds B FB IH]; intros pss FC FH FP.
  - inversion FP; subst. exists [], []. cbn. repeat split; constructor.
  - inversion FP as [|? ps ? pss' PS FP']; subst. pose proof (FH n (or_introl eq_refl)) as (H1 & H2 & H3 & H4). assert (FH' : forall n, In n l -> fits_header hw (T n)) by (intros m M; apply FH; now right).
    destruct B as (B1 & B2 & (data & B3 & B4 & B5) & _). unfold stored_ones in *. cbn [filter] in *. destruct (0 <? dn_count d) eqn:C.
    + apply Z.ltb_lt in C. pose proof (Forall_inv FC) as C'. apply Forall_inv_tail in FC. destruct (IH pss' FC FH' FP') as (datas & bs & A1 & A2 & A3 & A4 & A5 & A6).
      destruct (points_come_back hw (fst (T n)) (snd (T n)) data H3 H4 H1 H2 RB B3) as (WB & ps2 & qs2 & E2 & D2 & CB2). assert (ps2 = ps) as -> by (unfold points_in in PS; congruence).
      destruct (uniform_points _ _ H3 H4) as (ps1 & E & WP & UP). assert (ps1 = ps) as -> by (unfold points_in in PS; congruence). rewrite H1, H2 in UP.
      unfold points_pack in B3. apply bind_ok in B3 as (bs1 & Q & B3). assert (data = concat bs1) as -> by (cbn in B3; congruence). destruct (pack_all _ _ _ _ _ _ WP E Q) as (X & Y).
      exists (concat bs1 :: datas), (bs1 ++ bs). cbn [map concat]. rewrite A2 in *. split; [|split; [|split; [|split; [|split]]]].
      * constructor; [|exact A1]. unfold laz_op, laz_stores. split; [exact B4|]. rewrite B2. split; [|unfold INT32_MAX in C'; lia].
        rewrite (proj1 D2). f_equal. f_equal. rewrite <- (points_in_length _ _ PS). clear - CB2. induction CB2; cbn; congruence.
      * now rewrite concat_app.
      * apply Forall_app. auto.
      * apply Forall2_app; assumption.
      * apply Forall_app. auto.
      * apply Forall_app. auto.
    + apply Z.ltb_ge in C. destruct (IH pss' FC FH' FP') as (datas & bs & A). exists datas, bs. assert (ps = []) as ->; [|exact A]. pose proof (points_in_length _ _ PS). destruct ps; [reflexivity|]. cbn [length] in *. lia.
Qed.
Lemma laz_storable_bounds z z' : z_wkt z' = z_wkt z -> z_ebs z' = z_ebs z -> (exists mn mx, z_hdr z' = with_bounds mn mx (z_hdr z)) \/ z_hdr z' = z_hdr z -> laz_storable z -> laz_storable z'.
Proof. intros A B C S. unfold laz_storable in *. rewrite A, B. destruct C as [(mn & mx & ->)| ->]; exact S. Qed.

(* a LazReader on the file gives the points of every node, those of a node together and in order, the nodes in some order *)
Theorem C56_laz_points : forall cd used f hs h P p od nodes res r l tf z T upd chunk w pss hp,
  transforms cd f hs h P p od nodes res r l tf (z_hdr z) T -> 0 < chunk -> laz_program cd tf upd od nodes res chunk r p z w ->
  lossless cd -> exact cd used -> laz_storable z -> h_reclen (z_hdr z) <= 255 -> (forall n, In n l -> fits_header (z_hdr z) (T n)) ->
  Forall2 (fun n => points_in (T n)) l pss -> Z.of_nat (length (concat pss)) < 2 ^ 31 ->
  exists pss' r' x qs, Permutation pss pss' /\ open_laz_reader (laz_file w) = Ok r' /\ laz_points cd used hp r' = Ok x /\ has_points (z_hdr z) x qs /\
    Forall2 (comes_back (h_scale (z_hdr z)) (h_offset (z_hdr z))) (concat pss') qs.
Proof.
  intros cd used f hs h P p od nodes res r l tf z T upd chunk w pss hp TR N (w0 & w1 & O & RD & TL & CL & LEN) LS EX SB R255 FH FP LP.
  destruct (transform_laz_session _ _ _ _ _ _ _ _ _ _ _ _ _ _ _ _ _ _ _ TR N O RD TL CL LEN) as (z' & ds & l' & PL & FB & FC & SE & FI & ZW & ZE & ZH).
  destruct (laz_ready_header' _ RD) as (F6 & RB). destruct (Permutation_Forall2 PL FP) as (pss' & PP & FP').
  destruct (brought_records _ _ _ _ F6 (proj1 RB) _ _ _ FB FC (fun n I => FH n (Permutation_in _ (Permutation_sym PL) I)) FP') as (datas & bs & A1 & A2 & A3 & A4 & A5 & A6).
  destruct (packs_decode (z_hdr z) (proj1 RB) _ _ A4 A5 A6) as (qs & D & CB).
  assert (ZZ : (exists mn mx, z_hdr z' = with_bounds mn mx (z_hdr z)) \/ z_hdr z' = z_hdr z) by (destruct upd; [left; destruct ZH as (mn & mx & _ & E); eauto|now right]).
  pose proof (laz_storable_bounds _ _ ZW ZE ZZ SB) as SB'.
  assert (HH : h_fmt (z_hdr z') = h_fmt (z_hdr z) /\ h_reclen (z_hdr z') = h_reclen (z_hdr z) /\ h_scale (z_hdr z') = h_scale (z_hdr z) /\ h_offset (z_hdr z') = h_offset (z_hdr z)) by (destruct ZZ as [(mn & mx & ->)| ->]; auto).
  destruct HH as (H1 & H2 & H3 & H4).
  assert (A1' : Forall2 (laz_stores cd (z_hdr z')) (accepted (map (fun d => (laz_op d, Ok tt)) (stored_ones ds))) datas).
  { rewrite accepted_all. clear - A1 H1 H2. revert datas A1. induction (stored_ones ds) as [|d l IH]; intros datas A; inversion A; subst; cbn [map]; constructor; [|auto]. unfold laz_op, laz_stores in *. rewrite H1, H2. assumption. }
  assert (LQ : length qs = length (concat pss')) by (symmetry; clear - CB; induction CB; cbn; congruence).
  pose proof (Permutation_length (Permutation_concat _ _ PP)) as PLN.
  destruct (C54_points_of_records cd used z' _ _ w datas hp (Z.of_nat (length (concat pss'))) LS EX SE FI SB') as (r' & x & qs' & OR & E & (P1 & P2 & P3) & DC).
  - rewrite H2. exact R255.
  - exact A1'.
  - exact A3.
  - rewrite A2, H2, <- LQ. exact (proj1 D).
  - rewrite <- PLN. exact LP.
  - apply (same_decodes _ (z_hdr z)) in DC; auto. rewrite A2 in DC. assert (qs' = qs) as ->. { eapply decodes_unique; [|exact DC|exact D]. pose proof (ProofPoint.las_base_range (h_fmt (z_hdr z))). lia. }
    exists pss', r', x, qs. split; [exact PP|]. split; [exact OR|]. split; [exact E|]. split; [|exact CB]. split; [exact P1|]. rewrite <- H1, <- H2. auto.
Qed.
Print Assumptions C56_laz_points.
(* the settings are those of the writer; with update_minmax the bounds are the bounding box of the transformed points *)
Theorem C56_laz_settings : forall cd f hs h P p od nodes res r l tf z T upd chunk w,
  transforms cd f hs h P p od nodes res r l tf (z_hdr z) T -> 0 < chunk -> laz_program cd tf upd od nodes res chunk r p z w -> laz_storable z ->
  exists r', open_laz_reader (laz_file w) = Ok r' /\ z_wkt (lr_cfg r') = z_wkt z /\ z_ebs (lr_cfg r') = z_ebs z /\
    (upd = false -> laz_settings (z_hdr z) (z_hdr (lr_cfg r'))) /\
    (upd = true -> exists mn mx, laz_settings (with_bounds mn mx (z_hdr z)) (z_hdr (lr_cfg r')) /\
      forall ps, all_points l T ps -> no_nan ps -> (ps <> [] -> bounding ps mn mx) /\ (ps = [] -> mn = zero_vec /\ mx = zero_vec)).
Proof.
  intros cd f hs h P p od nodes res r l tf z T upd chunk w TR N (w0 & w1 & O & RD & TL & CL & LEN) SB.
  destruct (transform_laz_session _ _ _ _ _ _ _ _ _ _ _ _ _ _ _ _ _ _ _ TR N O RD TL CL LEN) as (z' & ds & l' & PL & FB & FC & SE & FI & ZW & ZE & ZH).
  assert (ZZ : (exists mn mx, z_hdr z' = with_bounds mn mx (z_hdr z)) \/ z_hdr z' = z_hdr z) by (destruct upd; [left; destruct ZH as (mn & mx & _ & E); eauto|now right]).
  destruct (C54_config _ _ _ _ _ SE FI (laz_storable_bounds _ _ ZW ZE ZZ SB)) as (r' & OR & RW & RE & ST & _). exists r'. split; [exact OR|]. split; [congruence|]. split; [congruence|]. split.
  - intros ->. rewrite <- ZH. exact ST.
  - intros ->. destruct ZH as (mn & mx & G & ZH). exists mn, mx. split; [rewrite <- ZH; exact ST|]. intros ps (pss & F & ->) NN.
    rewrite (bounds_list _ _ _ _ _ _ FB) in G. destruct (Permutation_Forall2 PL F) as (pss' & PP & F'). pose proof (Permutation_concat _ _ PP) as PC. split.
    + intros NE. apply (bounding_same (concat pss')); [now apply Permutation_sym|]. apply (global_bounding T l'); auto.
      * eapply Permutation_Forall; [exact PC|exact NN].
      * intros E. rewrite E in PC. apply Permutation_sym, Permutation_nil in PC. contradiction.
    + intros E. rewrite E in PC. apply Permutation_nil in PC. rewrite (no_points_bounds T l' pss' F' PC) in G. exact G.
Qed.
Print Assumptions C56_laz_settings.

(* a run on worker 0, one node after another *)
Definition laz_run_check (f : bytes) (l : list node) (r : reader) (tf : node_data -> node -> las_header -> outcome node_data) (upd : bool) (z : laz_config) : bool :=
  match open_laz_writer None z with
  | Ok w0 =>
      let h := c_hdr (r_cfg r) in
      match mapM (fun n => transform_job verbatim tf upd (z_hdr z) (loaded h (points_of h f n)) n) l with
      | Ok ds => match each (store (add_to_laz verbatim)) ds (w0, []) with
                 | ((w1, bs), Ok _) =>
                     match close_laz verbatim (if upd then laz_bounds (lows bs) (highs bs) w1 else w1) with
                     | (w, Ok _) => (Z.of_nat (length (laz_file w)) <? 2 ^ 64) && (negb upd || (match bs with [] => false | _ => true end && forallb (fun b => number_vec (fst b) && number_vec (snd b)) bs))
                     | _ => false end
                 | _ => false end
      | _ => false end
  | _ => false
  end.
Lemma laz_run_check_ok f hs r l tf upd z chunk : let h := c_hdr (r_cfg r) in open_reader true f = Ok r -> source verbatim f hs h (points_of h f) -> Forall (stored_nodes hs) l ->
  picklable (z_hdr z) -> laz_ready z -> 0 < chunk -> laz_run_check f l r tf upd z = true ->
  exists T w, transforms verbatim f hs h (points_of h f) (fun _ => r) in_order (Some l) (f64_of_Z (-1)) r l tf (z_hdr z) T /\
    laz_program verbatim tf upd in_order (Some l) (f64_of_Z (-1)) chunk r (fun _ => r) z w /\ (forall n, In n l -> tf (loaded h (points_of h f n)) n (z_hdr z) = Ok (T n)).
Proof.
  intros h O SR FS PK RD N H. unfold laz_run_check in H. fold h in H. destruct (open_laz_writer None z) as [w0| |] eqn:OW; try discriminate. cbv zeta in H.
  set (job := fun n => transform_job verbatim tf upd (z_hdr z) (loaded h (points_of h f n)) n) in *.
  destruct (mapM job l) as [ds| |] eqn:MJ; try discriminate. destruct (each (store (add_to_laz verbatim)) ds (w0, [])) as ((w1, bs), o) eqn:EA. destruct o as [[]| |]; try discriminate.
  destruct (close_laz verbatim (if upd then laz_bounds (lows bs) (highs bs) w1 else w1)) as (w, o) eqn:CL. destruct o as [[]| |]; try discriminate. apply andb_prop in H as (LW & BD). apply Z.ltb_lt in LW.
  destruct (mapM_each job (mkDone [] (mkNode (mkEntry root_key 0 0 0) root_key) 0 None) _ _ MJ) as (VV & EV). set (V := fun a => match job a with Ok b => b | _ => mkDone [] (mkNode (mkEntry root_key 0 0 0) root_key) 0 None end) in *.
  set (T := fun n => match tf (loaded h (points_of h f n)) n (z_hdr z) with Ok y => y | _ => ([], mkPoints 0 0 []) end).
  assert (TF : forall n, In n l -> tf (loaded h (points_of h f n)) n (z_hdr z) = Ok (T n)).
  { intros n I. pose proof (VV n I) as J. unfold job at 1 in J. unfold transform_job in J. apply bind_ok in J as (y & Y & _). unfold T. now rewrite Y. }
  exists T, w.
  assert (FP : fresh_pool f (fun _ => r)) by (intros i; exact O).
  assert (TR : transforms verbatim f hs h (points_of h f) (fun _ => r) in_order (Some l) (f64_of_Z (-1)) r l tf (z_hdr z) T).
  { split; [exact SR|]. split; [exact FP|]. split; [apply given_selects|]. split; [exact FS|]. split; [exact PK|exact TF]. }
  split; [exact TR|]. split; [|exact TF]. destruct (laz_open_inv _ _ OW RD) as (CF & _).
  destruct (pool_reader verbatim f hs h _ _ SR FP) as (r0 & SP & D & RF & CH). destruct (py_chunks_pos chunk l N) as (cs & PC & (CC & _)).
  assert (LP : mp_loop (transform_task verbatim tf upd (z_hdr (lw_cfg w0))) (store (add_to_laz verbatim)) in_order (Some l) (f64_of_Z (-1)) chunk r (fun _ => r) (w0, []) (w1, bs) (Ok tt)).
  { rewrite CF. refine (loop_order _ (store (add_to_laz verbatim)) r0 (stored_nodes hs) job (fun n M => transform_task_ok verbatim tf upd _ f hs h _ r0 n SR D RF CH PK M) V in_order _ _ chunk r _ _ _ l cs (map (map V) cs) SP FS VV (given_selects _ _ _) PC CC _ _).
    - clear. induction cs; constructor; auto.
    - rewrite <- concat_map, CC, <- EV. exact EA. }
  exists w0, (if upd then laz_bounds (lows bs) (highs bs) w1 else w1). split; [exact OW|]. split; [exact RD|]. split; [|split; [exact CL|exact LW]].
  exists w1, bs. split; [exact LP|]. destruct upd; [|reflexivity]. exists (lows bs), (highs bs). split; [|reflexivity]. cbn [negb orb] in BD. apply andb_prop in BD as (B1 & B2). apply lows_ok; [|exact B2]. intros ->. discriminate.
Qed.
Definition laz_fits_b (h hw : las_header) (ps : list point) : bool := (h_fmt h =? h_fmt hw) && (h_reclen h =? h_reclen hw) && forallb (fun p => wf_point_b p && (p_fmt p =? h_fmt h) && (p_reclen p =? h_reclen h)) ps.
Lemma laz_fits_b_ok h hw ps : laz_fits_b h hw ps = true -> fits_header hw (loaded h ps).
Proof. intros H. exact (fits_b_ok h (mkCfg hw (c_wkt a_config) (c_ebs a_config) (c_info a_config) (c_exts a_config)) ps H). Qed.
Lemma laz_copied : forall upd, match open_reader true good_file with
  | Ok r => let h := c_hdr (r_cfg r) in laz_run_check good_file (node_list good_pages) r copy_points upd (laz_round_config [an_eb] 48) &&
      forallb (fun n => laz_fits_b h (z_hdr (laz_round_config [an_eb] 48)) (points_of h good_file n) && nan_free_b (points_of h good_file n)) (node_list good_pages)
  | _ => false end = true.
Proof. intros [|]; vm_compute; reflexivity. Qed.
Lemma laz_round_picklable : picklable (z_hdr (laz_round_config [an_eb] 48)).
Proof.
  destruct eb_ready as (G & _). split; [apply G|]. unfold laz_round_config. cbn [z_hdr h_guid h_sys h_gen]. repeat split; try (cbn; lia); vm_compute; discriminate.
Qed.
Example C56_laz_nonvacuous : forall upd, exists cd used f hs h P p r l T z w pss, transforms cd f hs h P p in_order (Some l) (f64_of_Z (-1)) r l copy_points (z_hdr z) T /\
  laz_program cd copy_points upd in_order (Some l) (f64_of_Z (-1)) 2 r p z w /\ lossless cd /\ exact cd used /\ laz_storable z /\ h_reclen (z_hdr z) <= 255 /\ (forall n, In n l -> fits_header (z_hdr z) (T n)) /\
  Forall2 (fun n => points_in (T n)) l pss /\ no_nan (concat pss) /\ (3 <= length (concat pss) < 100)%nat.
Proof.
  intros upd. destruct sample_setup as (r & O & SR & FS & R). cbv zeta in SR. pose proof (laz_copied upd) as K. rewrite O in K. cbv zeta in K. set (h := c_hdr (r_cfg r)) in *. apply andb_prop in K as (K1 & K3).
  destruct eb_ready as (G & SB). pose proof laz_round_picklable as PK. assert (RL : h_reclen (z_hdr (laz_round_config [an_eb] 48)) <= 255) by (cbn; lia).
  assert (X : (3 <= length (concat (map (points_of h good_file) (node_list good_pages))) < 100)%nat).
  { assert (Y : match open_reader true good_file with Ok r => let n := length (concat (map (points_of (c_hdr (r_cfg r)) good_file) (node_list good_pages))) in (3 <=? n)%nat && (n <? 100)%nat | _ => false end = true) by (vm_compute; reflexivity).
    rewrite O in Y. cbv zeta in Y. fold h in Y. apply andb_prop in Y as (A & B). apply Nat.leb_le in A. apply Nat.ltb_lt in B. auto. }
  revert FS K1 K3 X G PK RL SB. generalize (node_list good_pages) (laz_round_config [an_eb] 48). intros l z FS K1 K3 X G PK RL SB.
  destruct (laz_run_check_ok good_file good_pages r l copy_points upd z 2 O SR FS PK G ltac:(lia) K1) as (T & w & TR & TP & TF).
  assert (TE : forall m, In m l -> T m = loaded h (points_of h good_file m)) by (intros m M; symmetry; exact (same_ok (copy_points (loaded h (points_of h good_file m)) m (z_hdr z)) _ _ eq_refl (TF m M))).
  rewrite forallb_forall in K3. assert (K4 : forall m, In m l -> laz_fits_b h (z_hdr z) (points_of h good_file m) = true /\ nan_free_b (points_of h good_file m) = true) by (intros m M; apply K3 in M; now apply andb_prop in M).
  exists verbatim, verbatim_used, good_file, good_pages, h, (points_of h good_file), (fun _ => r), r, l, T, z, w, (map (points_of h good_file) l). split; [exact TR|]. split; [exact TP|]. split; [exact verbatim_lossless|]. split; [exact verbatim_exact|]. split; [exact SB|]. split; [exact RL|]. split; [|split; [|split]].
  - intros m M. rewrite (TE m M). apply laz_fits_b_ok. now apply K4.
  - clear - TE. induction l as [|n l IH]; [constructor|]. cbn [map]. constructor; [rewrite (TE n (or_introl eq_refl)); exact (loaded_points h _)|]. apply IH. intros m M. apply TE. now right.
  - rewrite <- flat_map_concat_map. apply flat_no_nan. apply Forall_forall. intros m M. apply nan_free_ok. now apply K4.
  - exact X.
Qed.
