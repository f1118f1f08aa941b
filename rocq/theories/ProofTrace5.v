(* ProofTrace5.v - the contents of a LAZ file while it is being written *)
From Verif Require Import Base BaseFacts ModelFloat ModelKey ModelGeom ModelEntry ModelPoint ModelPoints ModelHeader ModelVlr ModelExtents ModelConfig
  ModelStream ModelWriter ModelReader ModelLazReader ModelTrace SpecKey SpecPoint SpecConfig SpecHeader SpecWriter SpecLaz SpecFile SpecCrash ProofStream ProofHeader ProofConfig
  ProofWriter ProofClose ProofClose2 ProofLaz ProofTrace ProofTrace2 ProofTrace3 ProofTrace4.

Lemma base_header_shape z b : laz_ready z -> fits (laz_start z) (b_points b) (b_evoff b) (b_evcnt b) ->
  exists bs, t_base_header (z_hdr z) (z_ebs z) b = SSeek 0 :: map SPut bs /\ Z.of_nat (length (concat bs)) <= laz_start z.
Proof.
  intros G FT. unfold t_base_header. destruct (base_offset_ok _ G) as (-> & _). destruct (laz_eb _ G) as (E & _). rewrite E.
  destruct (to_lazperf_defined (z_hdr z) (laz_start z) (b_points b) (b_evoff b) (b_evcnt b) (negb (eb_total (z_ebs z) =? 0)) false) as (l & TL); [discriminate|].
  assert (HL : length (enc_header14 l) = 375%nat) by (eapply header_written_length; [apply G|exact FT|exact TL]).
  assert (SL : 0 <= laz_slack z) by (unfold laz_slack; destruct (_ && _); lia). pose proof (laz_vlrs_length _ G) as VL.
  unfold t_las_header, write_las_header. rewrite E. cbn [bind]. rewrite TL. exists [enc_header14 l; laz_and_eb_vlrs (z_hdr z) (z_ebs z) (eb_total (z_ebs z))]. split; [reflexivity|].
  cbn [concat]. rewrite app_nil_r, app_length, HL. unfold laz_vlrs in VL. lia.
Qed.
Lemma base_tail_shape cd z b : laz_ready z -> 0 <= b_points b < 2 ^ 64 -> 0 <= b_evcnt b < 2 ^ 32 ->
  t_base_tail cd z b = [] \/ exists bs, t_base_tail cd z b = SSeek 0 :: map SPut bs /\ Z.of_nat (length (concat bs)) <= laz_start z.
Proof.
  intros G P EC. unfold t_base_tail, base_before_header. destruct (negb _); [now left|]. destruct (base_offset_ok _ G) as (-> & R).
  destruct (write_chunk_table cd (laz_start z) b) as (b1, [u| |]) eqn:E1; [|now left..]. right.
  assert (P1 : b_points b1 = b_points b /\ b_evcnt b1 = b_evcnt b).
  { unfold write_chunk_table in E1. cbv zeta in E1. destruct (Z.ltb _ _); apply (f_equal fst) in E1; cbn [fst] in E1; rewrite <- E1; split; reflexivity. }
  destruct P1 as (P1 & P2). cbv zeta. apply base_header_shape; [exact G|]. split; [lia|].
  unfold write_wkt, emit. destruct (z_wkt z); cbn [with_out b_points b_evoff b_evcnt b_out]; rewrite ?P1, ?P2; split; try exact P; split; try (apply Z.mod_pos_bound; lia); lia.
Qed.

Section LazInterrupted.
Variables (cd : codec) (z : laz_config) (ops : list lop) (w0 : laz_writer).
Hypothesis O : open_laz_writer None z = Ok w0.
Hypothesis G : laz_ready z.
Let ds := laz_start z.
Lemma lz_off : base_offset (z_hdr z) (z_ebs z) = Ok ds /\ 375 < ds < 2 ^ 32 /\ lw_cfg w0 = z /\
  b_out (lw_base w0) = mkOut (zeros (Z.to_nat ds + 8)) (Z.to_nat ds + 8) false None.
Proof.
  destruct (base_offset_ok _ G) as (A & B). unfold open_laz_writer in O. rewrite A in O. cbn [bind] in O.
  apply (f_equal (fun o => match o with Ok a => a | _ => w0 end)) in O. cbv beta iota in O. rewrite <- O. cbn [lw_cfg lw_base b_out]. repeat split; try assumption; try apply B.
  rewrite put_fine by (split; reflexivity). cbn [empty_out o_data o_pos]. unfold splice. rewrite skipn_nil, firstn_nil, app_nil_r. cbn [app]. rewrite zeros_length. unfold first_chunk_offset.
  fold ds. replace (Z.to_nat (ds + 8)) with (Z.to_nat ds + 8)%nat by (unfold ds; lia). reflexivity.
Qed.
Lemma lz_play : play (t_reserve (base_offset (z_hdr z) (z_ebs z))) (empty_out None) = b_out (lw_base w0).
Proof.
  destruct lz_off as (A & B & _ & D). rewrite A, D. cbn [t_reserve play do_sop]. rewrite put_fine by (split; reflexivity). cbn [empty_out o_data o_pos]. unfold splice. rewrite skipn_nil, firstn_nil, app_nil_r. cbn [app]. rewrite zeros_length.
  unfold first_chunk_offset. replace (Z.to_nat (ds + 8)) with (Z.to_nat ds + 8)%nat by lia. reflexivity.
Qed.
Lemma lz_ahead : ahead (Z.to_nat ds) (b_out (lw_base w0)).
Proof. destruct lz_off as (_ & _ & _ & ->). right. cbn [o_pos o_data]. rewrite zeros_length. lia. Qed.
Lemma lz_zero : window 0 (Z.to_nat ds) (o_data (b_out (lw_base w0))) = zeros (Z.to_nat ds).
Proof. destruct lz_off as (_ & _ & _ & ->). cbn [o_data]. rewrite window_0, zeros_add. apply first_app, zeros_length. Qed.
Lemma lz_reserve_cut f : cut_short (t_reserve (base_offset (z_hdr z) (z_ebs z))) (empty_out None) f -> firstn 4 f = zeros (length (firstn 4 f)).
Proof.
  destruct lz_off as (A & _). rewrite A. cbn [t_reserve cut_short]. intros H.
  assert (Q : exists k, f = zeros k).
  { destruct H as [(n & ->)| ->]; [exists (Nat.min n (Z.to_nat (first_chunk_offset ds)))|exists (Z.to_nat (first_chunk_offset ds))]; cbn [do_sop]; rewrite put_fine by (split; reflexivity); cbn [empty_out o_data o_pos]; unfold splice;
    rewrite skipn_nil, firstn_nil, app_nil_r; cbn [app]; [apply zeros_first|reflexivity]. }
  destruct Q as (k & ->). rewrite zeros_first, zeros_length. reflexivity.
Qed.
Lemma lz_run_cut rest f : spares 0 (Z.to_nat ds) rest (play (t_laz_run cd ops w0) (b_out (lw_base w0))) -> cut_short (t_reserve (base_offset (z_hdr z) (z_ebs z)) ++ t_laz_run cd ops w0 ++ rest) (empty_out None) f -> firstn 4 f = zeros (length (firstn 4 f)).
Proof.
  intros SP H. destruct lz_off as (_ & DR & _). apply cut_app in H as [H|H]; [now apply lz_reserve_cut|]. rewrite lz_play in H.
  apply (zero_window f (Z.to_nat ds)); [lia|]. rewrite <- lz_zero. apply (cut_window 0 (Z.to_nat ds) (t_laz_run cd ops w0 ++ rest)); [apply ahead_solid, lz_ahead| |exact H].
  apply spares_app; [|exact SP]. apply tame_spares; [apply laz_run_tame|apply lz_ahead].
Qed.
Lemma lz_unclosed_cut f : cut_short (t_reserve (base_offset (z_hdr z) (z_ebs z)) ++ t_laz_run cd ops w0) (empty_out None) f -> rejected f.
Proof. intros H. apply head_rejected. apply (lz_run_cut []); [exact I|]. now rewrite app_nil_r. Qed.
Variables (w1 : laz_writer) (l : laz_log) (cs : list (bytes * Z)).
Hypothesis R : lrun cd ops w0 = (w1, l).
Hypothesis CF : lw_cfg w1 = z.
Hypothesis B : binv (ds + 8) cs (lw_base w1).
Lemma lz1_play : play (t_laz_run cd ops w0) (b_out (lw_base w0)) = b_out (lw_base w1).
Proof. rewrite play_laz_run, R. reflexivity. Qed.
Lemma lz1_ahead : ahead (Z.to_nat ds) (b_out (lw_base w1)).
Proof. rewrite <- lz1_play. exact (proj2 (tame_spares 0 _ _ _ (laz_run_tame cd ops w0) lz_ahead)). Qed.
Lemma lz_body_spares : spares 0 (Z.to_nat ds) (t_base_body cd z (lw_base w1)) (b_out (lw_base w1)).
Proof. apply (base_body_spares _ _ _ _ _ ds); [apply lz_off|apply lz1_ahead|left; lia]. Qed.
Lemma lz_body_zero : window 0 (Z.to_nat ds) (o_data (play (t_base_body cd z (lw_base w1)) (b_out (lw_base w1)))) = zeros (Z.to_nat ds).
Proof.
  rewrite play_window; [|apply ahead_solid, lz1_ahead|apply lz_body_spares].
  rewrite <- lz1_play, play_window; [apply lz_zero|apply ahead_solid, lz_ahead|]. apply tame_spares; [apply laz_run_tame|apply lz_ahead].
Qed.
Lemma lz_session_cut f : cut_short (t_laz_session cd w0 ops) (empty_out None) f ->
  firstn 4 f = zeros (length (firstn 4 f)) \/ exists p, 0 <= p <= ds /\ f = blanked p ds (laz_file (fst (close_laz cd w1))).
Proof.
  intros H. unfold t_laz_session in H. destruct lz_off as (_ & DR & C0 & S0). rewrite C0, R in H. cbn [fst] in H. rewrite CF in H. rewrite !app_assoc in H.
  apply cut_app in H as [H|H]; [left; apply (lz_run_cut (t_base_body cd z (lw_base w1))); [rewrite lz1_play; apply lz_body_spares|now rewrite app_assoc]|].
  rewrite !play_app, lz_play, lz1_play in H.
  assert (FI : fine (play (t_base_body cd z (lw_base w1)) (b_out (lw_base w1)))).
  { apply play_fine. rewrite <- lz1_play. apply play_fine. rewrite S0. split; reflexivity. }
  pose proof lz_body_zero as BZ. rewrite window_0 in BZ.
  assert (FE : laz_file (fst (close_laz cd w1)) = o_data (play (t_base_tail cd z (lw_base w1)) (play (t_base_body cd z (lw_base w1)) (b_out (lw_base w1))))).
  { unfold laz_file, close_laz. rewrite CF, <- play_app, play_base_close. destruct (base_close _ _ _); reflexivity. }
  destruct (base_tail_shape cd z (lw_base w1)) as [T|(bs & T & TL)]; [exact G| | | |].
  { destruct B as (_ & _ & _ & _ & -> & _). apply Z.mod_pos_bound. lia. }
  { destruct B as (_ & _ & _ & _ & _ & ->). lia. }
  - left. rewrite T in H. cbn [cut_short] in H. subst f. apply (zero_window _ (Z.to_nat ds)); [lia|apply lz_body_zero].
  - right. rewrite T in *. fold ds in TL. apply (cut_head _ (Z.to_nat ds)) in H; [|exact FI|exact BZ|lia]. destruct H as (p & P & ->). exists (Z.of_nat p). split; [lia|].
    rewrite FE. unfold blanked, bytes_at. cbn [Z.to_nat skipn]. rewrite Nat2Z.id. replace (Z.to_nat (ds - Z.of_nat p)) with (Z.to_nat ds - p)%nat by lia. reflexivity.
Qed.
End LazInterrupted.
