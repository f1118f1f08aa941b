(* ProofTrace3.v - the contents of a COPC file while it is being written *)
From Coq Require Import Permutation.
From Verif Require Import Base BaseFacts ModelFloat ModelKey ModelGeom ModelEntry ModelPoint ModelPoints ModelHeader ModelVlr ModelExtents ModelConfig
  ModelStream ModelWriter ModelReader ModelLazReader ModelTrace SpecKey SpecPoint SpecConfig SpecHeader SpecWriter SpecFile SpecCrash ProofStream ProofHeader ProofConfig
  ProofWriter ProofClose ProofClose2 ProofSession ProofOpen3 ProofTrace ProofTrace2.

Lemma window_0 hi d : window 0 hi d = firstn hi d.
Proof. unfold window. cbn [skipn]. now rewrite Nat.sub_0_r. Qed.
Lemma read_header14_defined f : (exists l, read_header14 f = Ok l) \/ read_header14 f = Throw.
Proof. unfold read_header14. destruct (dec_header14 f) as [((magic, l), r)|]; [|now right]. destruct (negb _); [now right|]. destruct (Z.eqb _ _); eauto. Qed.
Lemma zero_head_throws f : firstn 4 f = zeros (length (firstn 4 f)) -> read_header14 f = Throw.
Proof. intros H. destruct (read_header14_defined f) as [(l & E)|E]; [|exact E]. apply header_counts in E as (_ & _ & _ & _ & E). rewrite E in H. discriminate H. Qed.
Lemma zero_head_rejected f isf : firstn 4 f = zeros (length (firstn 4 f)) -> open_reader isf f = Throw /\ open_laz_reader f = Throw.
Proof. intros H. apply zero_head_throws in H. unfold open_reader, open_laz_reader, init_reader. rewrite H. now split. Qed.
Lemma head_rejected f : firstn 4 f = zeros (length (firstn 4 f)) -> rejected f.
Proof. intros H. split; [intros isf; exact (proj1 (zero_head_rejected f isf H))|exact (proj2 (zero_head_rejected f true H))]. Qed.
Lemma zeros_first n m : firstn n (zeros m) = zeros (Nat.min n m).
Proof. unfold zeros. revert m. induction n as [|n IH]; intros m; [reflexivity|]. destruct m as [|m]; [reflexivity|]. cbn [repeat firstn Nat.min]. now rewrite IH. Qed.
Lemma zero_window f n : (4 <= n)%nat -> window 0 n f = zeros n -> firstn 4 f = zeros (length (firstn 4 f)).
Proof.
  intros N H. rewrite window_0 in H. assert (E : firstn 4 f = firstn 4 (firstn n f)) by (rewrite firstn_firstn; f_equal; lia). rewrite E, H, zeros_first, zeros_length. reflexivity.
Qed.

(* what Close keeps of the configuration while it writes the pages *)
Definition keeps (w w' : writer) : Prop :=
  (cfg_ok (w_cfg w) -> cfg_ok (w_cfg w')) /\ data_start (w_cfg w') = data_start (w_cfg w) /\ c_hdr (w_cfg w') = c_hdr (w_cfg w) /\
  b_points (w_base w') = b_points (w_base w) /\ b_evoff (w_base w') = b_evoff (w_base w) /\ b_evcnt (w_base w') = b_evcnt (w_base w).
Lemma keeps_refl w : keeps w w.
Proof. split; [auto|]. repeat split. Qed.
Lemma keeps_trans a b c : keeps a b -> keeps b c -> keeps a c.
Proof. intros (A1 & A2 & A3 & A4 & A5 & A6) (B1 & B2 & B3 & B4 & B5 & B6). split; [auto|]. repeat (split; [congruence|]). congruence. Qed.
Lemma page_keeps od k w : keeps w (fst (write_page od k w)).
Proof.
  unfold write_page. destruct (mget k (w_pages w)) as [p|]; [|apply keeps_refl]. cbv zeta. destruct (Z.ltb_spec INT32_MAX (32 * Z.of_nat (length (wp_nodes p)) + 32 * Z.of_nat (length (wp_subs p)))) as [Q|Q]; cbn [fst]; [split; [auto|repeat split]|].
  destruct (key_eqb k root_key); [|split; [auto|repeat split]]. unfold keeps, data_start. cbn [with_base with_cfg w_cfg w_base c_hdr c_ebs c_exts emit with_out b_points b_evoff b_evcnt].
  split; [|repeat split]. intros (G1 & G2 & G3 & G4 & G5 & G6 & G7 & G8 & G9). unfold cfg_ok. cbn [c_hdr c_wkt c_ebs c_info c_exts]. repeat (split; [assumption|]). split; [|assumption].
  unfold wf_info in *. cbn [i_root_off i_root_size]. unfold INT32_MAX in Q. split; [apply Z.mod_pos_bound; lia|lia].
Qed.
Lemma tree_keeps od fuel : forall k w, keeps w (fst (write_page_tree fuel od k w)).
Proof.
  induction fuel as [|fuel IH]; intros k w; [apply keeps_refl|]. cbn [write_page_tree]. destruct (mget k (w_pages w)) as [p|]; [|apply keeps_refl].
  assert (E : forall l w, keeps w (fst (each (write_page_tree fuel od) l w))).
  { induction l as [|a l IHl]; intros v; [apply keeps_refl|]. cbn [each]. pose proof (IH a v) as K. destruct (write_page_tree fuel od a v) as (v1, [u| |]); cbn [then_ fst] in *; [|exact K..]. eapply keeps_trans; [exact K|apply IHl]. }
  specialize (E (od_subs od k (wp_subs p)) w). destruct (each _ _ w) as (w1, [u| |]); cbn [then_ fst] in *; [|exact E..]. eapply keeps_trans; [exact E|apply page_keeps].
Qed.

(* WriteHeader starts over at the beginning of the stream and stays within the reserved space *)
Lemma header_shape w : cfg_ok (w_cfg w) -> fits (data_start (w_cfg w)) (b_points (w_base w)) (b_evoff (w_base w)) (b_evcnt (w_base w)) ->
  exists bs, t_copc_header (data_start (w_cfg w)) w = SSeek 0 :: map SPut bs /\ Z.of_nat (length (concat bs)) <= data_start (w_cfg w).
Proof.
  intros G FT. unfold t_copc_header. cbv zeta. set (c := w_cfg w) in *. destruct (good_eb_size _ G) as (E & _ & _ & E2 & _).
  destruct (to_lazperf_defined (c_hdr c) (data_start c) (b_points (w_base w)) (b_evoff (w_base w)) (b_evcnt (w_base w)) (negb (eb_total (c_ebs c) =? 0)) (xs_ext (c_exts c))) as (l & TL); [intros _; apply G|].
  assert (HL : length (enc_header14 l) = 375%nat) by (eapply header_written_length; [apply G|exact FT|exact TL]).
  assert (SL : 0 <= slack c) by (unfold slack; destruct (_ && _); lia). pose proof (vlr_part_length _ G) as VL.
  assert (W : write_las_header (c_hdr c) (data_start c) (xs_ext (c_exts c)) (w_base w) = (emit (enc_header14 l) (with_out (seek_to 0 (b_out (w_base w))) (w_base w)), Ok tt)) by (unfold write_las_header; rewrite E, E2; cbn [bind]; now rewrite TL).
  rewrite W. unfold t_las_header. rewrite E, E2. cbn [bind]. rewrite TL, (gps_ok _ G).
  destruct (copc_vlrs_spec _ G) as [(V & _)|(V & _)]; rewrite V.
  - exists ([enc_header14 l; enc_vlr_header info_vlr_header; enc_info (c_info c) (ex_min (gps_extent c)) (ex_max (gps_extent c)); enc_vlr_header (extents_vlr_header (extents_to_vlr (c_exts c))); enc_pairs (extents_to_vlr (c_exts c))] ++
      (if xs_ext (c_exts c) then [enc_vlr_header (extended_vlr_header (extents_to_extended (c_exts c))); enc_pairs (extents_to_extended (c_exts c))] else []) ++ [laz_and_eb_vlrs (c_hdr c) (c_ebs c) (eb_total (c_ebs c))]).
    split; [rewrite !map_app; destruct (xs_ext _); reflexivity|]. 
    replace (concat _) with (enc_header14 l ++ vlr_part c); [rewrite app_length, HL; lia|].
    unfold vlr_part, ext_part, eb_part, laz_and_eb_vlrs. destruct (xs_ext _); cbn [app concat]; rewrite ?app_nil_r, <- !app_assoc; reflexivity.
  - exists [enc_header14 l; enc_vlr_header info_vlr_header; enc_info (c_info c) (ex_min (gps_extent c)) (ex_max (gps_extent c))]. split; [reflexivity|]. cbn [concat]. unfold vlr_part in VL. rewrite !app_length, HL in *. cbn [length]. lia.
Qed.
Lemma tail_shape cd od w : cfg_ok (w_cfg w) -> 0 <= b_points (w_base w) < 2 ^ 64 ->
  t_tail cd od w = [] \/ exists bs, t_tail cd od w = SSeek 0 :: map SPut bs /\ Z.of_nat (length (concat bs)) <= data_start (w_cfg w).
Proof.
  intros G P. unfold t_tail, before_header. destruct (negb _); [now left|]. destruct (copc_offset_ok _ G) as (-> & R).
  destruct (write_chunk_table cd (data_start (w_cfg w)) (w_base w)) as (b1, [u| |]) eqn:E1; [|now left..].
  assert (P1 : b_points b1 = b_points (w_base w)).
  { unfold write_chunk_table in E1. cbv zeta in E1. destruct (Z.ltb _ _); apply (f_equal fst) in E1; cbn [fst] in E1; rewrite <- E1; reflexivity. }
  cbv zeta. destruct (compute_hierarchy _ _) as [pages| |]; [|now left..]. 
  match goal with |- context [write_page_tree ?n od root_key ?x] => set (w3 := x); pose proof (tree_keeps od n root_key w3) as K; destruct (write_page_tree n od root_key w3) as (w4, [v| |]); [|now left..] end.
  cbn [fst] in K. destruct K as (K1 & K2 & K3 & K4 & K5 & K6). right.
  set (w5 := with_base (write_wkt (c_wkt (w_cfg w4)) (w_base w4)) w4).
  change (data_start (w_cfg w3)) with (data_start (w_cfg w)) in K2. assert (G5 : cfg_ok (w_cfg w5)) by (apply K1; exact G). change (w_cfg w4) with (w_cfg w5) in K2. rewrite <- K2.
  apply header_shape; [exact G5|]. rewrite K2. unfold w5, write_wkt. cbn [with_base w_base].
  assert (F1 : 0 <= b_points (w_base w4) < 2 ^ 64) by (rewrite K4; exact (eq_ind_r (fun z => 0 <= z < 2 ^ 64) P P1)).
  assert (F2 : 0 <= b_evoff (w_base w4) < 2 ^ 64) by (rewrite K5; unfold w3, after_table; cbn [with_base w_base b_evoff]; apply Z.mod_pos_bound; lia).
  assert (F3 : 0 <= b_evcnt (w_base w4) < 2 ^ 32) by (rewrite K6; unfold w3, after_table; cbn [with_base w_base b_evcnt]; apply Z.mod_pos_bound; lia).
  destruct (c_wkt (w_cfg w4)); cbn [emit with_out b_points b_evoff b_evcnt]; split; [lia|split; [exact F1|split; [exact F2|exact F3]]|lia|split; [exact F1|split; [exact F2|apply Z.mod_pos_bound; lia]]].
Qed.

(* streams without a size limit never fail *)
Definition fine (s : ostream) : Prop := o_bad s = false /\ o_cap s = None.
Lemma sop_fine o s : fine s -> fine (do_sop o s).
Proof.
  intros (A & B). destruct o as [b| |p]; cbn [do_sop]; unfold put, seek_end, seek_to, fine; rewrite A; cbn [o_bad o_cap]; rewrite B; cbn [o_bad o_cap]; split; auto. apply Nat.ltb_irrefl.
Qed.
Lemma play_fine l : forall s, fine s -> fine (play l s).
Proof. induction l as [|o l IH]; intros s F; [exact F|]. cbn [play]. now apply IH, sop_fine. Qed.
Lemma put_fine b s : fine s -> put b s = mkOut (splice (o_pos s) b (o_data s)) (o_pos s + length b) false None.
Proof. intros (A & B). unfold put. rewrite A, B. cbv zeta. now rewrite Nat.ltb_irrefl. Qed.

(* rewriting the start of a stream whose first ds bytes are zero *)
Lemma cut_head bs ds s f : fine s -> firstn ds (o_data s) = zeros ds -> (length (concat bs) <= ds)%nat -> cut_short (SSeek 0 :: map SPut bs) s f ->
  exists p, (p <= length (concat bs))%nat /\ f = firstn p (o_data (play (SSeek 0 :: map SPut bs) s)) ++ zeros (ds - p) ++ skipn ds (o_data (play (SSeek 0 :: map SPut bs) s)).
Proof.
  intros F Z L C. assert (F0 : fine (seek_to 0 s)) by (apply (sop_fine (SSeek 0)); exact F).
  assert (SD : seek_to 0 s = mkOut (o_data s) 0 false (o_cap s)) by (unfold seek_to; now rewrite (proj1 F)).
  assert (PL : o_data (play (SSeek 0 :: map SPut bs) s) = concat bs ++ skipn (length (concat bs)) (o_data s)).
  { cbn [play do_sop]. assert (P : forall l s, play (map SPut l) s = put (concat l) s).
    { induction l as [|b l IH]; intros t; cbn [map play do_sop concat]; [now rewrite put_nil|]. now rewrite IH, put_app. }
    rewrite P, put_fine by exact F0. rewrite SD. cbn [o_data o_pos]. unfold splice. now rewrite firstn_O. }
  assert (W : forall p, (p <= length (concat bs))%nat -> firstn p (concat bs) ++ skipn p (o_data s) =
    firstn p (o_data (play (SSeek 0 :: map SPut bs) s)) ++ zeros (ds - p) ++ skipn ds (o_data (play (SSeek 0 :: map SPut bs) s))).
  { intros p Hp. rewrite PL. rewrite firstn_app. replace (p - length (concat bs))%nat with 0%nat by lia. rewrite firstn_O, app_nil_r. f_equal.
    rewrite skipn_app, (skipn_all2 (concat bs)) by exact L. cbn [app]. rewrite skipn_add. replace (length (concat bs) + (ds - length (concat bs)))%nat with ds by lia.
    assert (E : o_data s = zeros ds ++ skipn ds (o_data s)) by (rewrite <- Z; symmetry; apply firstn_skipn). rewrite E at 1. rewrite skipn_app, zeros_length.
    replace (p - ds)%nat with 0%nat by lia. cbn [skipn]. f_equal. replace ds with (p + (ds - p))%nat at 1 by lia. rewrite zeros_add. apply skip_app, zeros_length. }
  cbn [cut_short] in C. destruct C as [(n & ->)|C].
  - exists 0%nat. split; [lia|]. rewrite <- W by lia. reflexivity.
  - apply cut_puts in C as (n & ->). cbn [do_sop]. exists (Nat.min n (length (concat bs))). split; [lia|]. rewrite put_fine by exact F0. rewrite SD. cbn [o_data o_pos]. unfold splice. rewrite firstn_O. cbn [app].
    rewrite firstn_length. cbn [Nat.add]. rewrite <- W by lia. f_equal. destruct (Nat.le_gt_cases n (length (concat bs))); [now rewrite Nat.min_l by lia|]. rewrite Nat.min_r by lia. now rewrite firstn_all, firstn_all2 by lia.
Qed.

Section Interrupted.
Variables (cd : codec) (od : orders) (c : config) (v : overrides) (c0 : config) (ops : list wop) (w0 : writer).
Hypothesis O : open_writer None c v = Ok w0.
Hypothesis E : init_writer c v = Ok c0.
Hypothesis RD : ready c0.
Let ds := data_start c0.
Lemma st_off : copc_offset (w_cfg w0) = Ok ds /\ 375 < ds < 2 ^ 32 /\ w_cfg w0 = c0 /\
  b_out (w_base w0) = mkOut (zeros (Z.to_nat ds + 8)) (Z.to_nat ds + 8) false None.
Proof.
  destruct (copc_offset_ok _ (ready_ok _ RD)) as (A & B). unfold open_writer in O. rewrite E in O. cbn [bind] in O. rewrite A in O. cbn [bind] in O.
  apply (f_equal (fun o => match o with Ok a => a | _ => w0 end)) in O. cbv beta iota in O. rewrite <- O. cbn [w_cfg w_base b_out]. repeat split; try assumption; try apply B.
  rewrite put_fine by (split; reflexivity). cbn [empty_out o_data o_pos]. unfold splice. rewrite skipn_nil, firstn_nil, app_nil_r. cbn [app]. rewrite zeros_length. unfold first_chunk_offset.
  fold ds. replace (Z.to_nat (ds + 8)) with (Z.to_nat ds + 8)%nat by (unfold ds; lia). reflexivity.
Qed.
Lemma st_play : play (t_reserve (copc_offset (w_cfg w0))) (empty_out None) = b_out (w_base w0).
Proof.
  destruct st_off as (A & B & _ & D). rewrite A, D. cbn [t_reserve play do_sop]. rewrite put_fine by (split; reflexivity). cbn [empty_out o_data o_pos]. unfold splice. rewrite skipn_nil, firstn_nil, app_nil_r. cbn [app]. rewrite zeros_length.
  unfold first_chunk_offset. replace (Z.to_nat (ds + 8)) with (Z.to_nat ds + 8)%nat by lia. reflexivity.
Qed.
Lemma st_ahead : ahead (Z.to_nat ds) (b_out (w_base w0)).
Proof. destruct st_off as (_ & _ & _ & ->). right. cbn [o_pos o_data]. rewrite zeros_length. lia. Qed.
Lemma st_zero : window 0 (Z.to_nat ds) (o_data (b_out (w_base w0))) = zeros (Z.to_nat ds).
Proof. destruct st_off as (_ & _ & _ & ->). cbn [o_data]. rewrite window_0, zeros_add. apply first_app, zeros_length. Qed.
Lemma reserve_cut f : cut_short (t_reserve (copc_offset (w_cfg w0))) (empty_out None) f -> firstn 4 f = zeros (length (firstn 4 f)).
Proof.
  destruct st_off as (A & _). rewrite A. cbn [t_reserve cut_short]. intros H.
  assert (Q : exists k, f = zeros k).
  { destruct H as [(n & ->)| ->]; [exists (Nat.min n (Z.to_nat (first_chunk_offset ds)))|exists (Z.to_nat (first_chunk_offset ds))]; cbn [do_sop]; rewrite put_fine by (split; reflexivity); cbn [empty_out o_data o_pos]; unfold splice;
    rewrite skipn_nil, firstn_nil, app_nil_r; cbn [app]; [apply zeros_first|reflexivity]. }
  destruct Q as (k & ->). rewrite zeros_first, zeros_length. reflexivity.
Qed.
Lemma run_cut rest f : spares 0 (Z.to_nat ds) rest (play (t_run cd ops w0) (b_out (w_base w0))) -> cut_short (t_reserve (copc_offset (w_cfg w0)) ++ t_run cd ops w0 ++ rest) (empty_out None) f -> firstn 4 f = zeros (length (firstn 4 f)).
Proof.
  intros SP H. destruct st_off as (_ & DR & _). apply cut_app in H as [H|H]; [now apply reserve_cut|]. rewrite st_play in H.
  apply (zero_window f (Z.to_nat ds)); [lia|]. rewrite <- st_zero. apply (cut_window 0 (Z.to_nat ds) (t_run cd ops w0 ++ rest)); [apply ahead_solid, st_ahead| |exact H].
  apply spares_app; [|exact SP]. apply tame_spares; [apply run_tame|apply st_ahead].
Qed.
Lemma unclosed_cut f : cut_short (t_reserve (copc_offset (w_cfg w0)) ++ t_run cd ops w0) (empty_out None) f -> rejected f.
Proof.
  intros H. assert (Z0 : firstn 4 f = zeros (length (firstn 4 f))) by (apply (run_cut []); [exact I|]; now rewrite app_nil_r).
  now apply head_rejected.
Qed.
Variables (w1 : writer) (l : log) (cs : list (bytes * Z)).
Hypothesis R : wrun cd ops w0 = (w1, l).
Hypothesis HS : history cd c0 ops l w1 cs.
Lemma st1_off : copc_offset (w_cfg w1) = Ok ds /\ data_start (w_cfg w1) = ds.
Proof. split; [|apply (hs_start _ _ _ _ _ _ HS)]. destruct (copc_offset_ok _ (hs_cfg _ _ _ _ _ _ HS)) as (A & _). now rewrite (hs_start _ _ _ _ _ _ HS) in A. Qed.
Lemma st1_play : play (t_run cd ops w0) (b_out (w_base w0)) = b_out (w_base w1).
Proof. rewrite play_run, R. reflexivity. Qed.
Lemma st1_ahead : ahead (Z.to_nat ds) (b_out (w_base w1)).
Proof. rewrite <- st1_play. exact (proj2 (tame_spares 0 _ _ _ (run_tame cd ops w0) st_ahead)). Qed.
Lemma body_cut f : cut_short (t_reserve (copc_offset (w_cfg w0)) ++ t_run cd ops w0 ++ t_body cd od w1) (empty_out None) f -> firstn 4 f = zeros (length (firstn 4 f)).
Proof. apply run_cut. rewrite st1_play. apply (body_spares _ _ _ _ _ ds); [apply st1_off|apply st1_ahead|left; lia]. Qed.
Lemma body_zero : window 0 (Z.to_nat ds) (o_data (play (t_body cd od w1) (b_out (w_base w1)))) = zeros (Z.to_nat ds).
Proof.
  rewrite play_window; [|apply ahead_solid, st1_ahead|apply (body_spares _ _ _ _ _ ds); [apply st1_off|apply st1_ahead|left; lia]].
  rewrite <- st1_play, play_window; [apply st_zero|apply ahead_solid, st_ahead|]. apply tame_spares; [apply run_tame|apply st_ahead].
Qed.
Lemma session_cut f : cut_short (t_session cd od w0 ops) (empty_out None) f ->
  firstn 4 f = zeros (length (firstn 4 f)) \/
  t_tail cd od w1 <> [] /\ exists p, 0 <= p <= ds /\ f = blanked p ds (file (fst (close cd od w1))).
Proof.
  intros H. unfold t_session in H. rewrite R in H. cbn [fst] in H. rewrite !app_assoc in H. apply cut_app in H as [H|H]; [left; apply body_cut; now rewrite app_assoc|].
  rewrite !play_app, st_play, st1_play in H.
  assert (FI : fine (play (t_body cd od w1) (b_out (w_base w1)))).
  { apply play_fine. rewrite <- st1_play. apply play_fine. destruct st_off as (_ & _ & _ & ->). split; reflexivity. }
  pose proof body_zero as BZ. rewrite window_0 in BZ. 
  assert (FE : file (fst (close cd od w1)) = o_data (play (t_tail cd od w1) (play (t_body cd od w1) (b_out (w_base w1))))).
  { unfold file. rewrite <- play_close, play_app. reflexivity. }
  destruct (tail_shape cd od w1) as [T|(bs & T & TL)]; [apply (hs_cfg _ _ _ _ _ _ HS)| | |].
  { destruct (hs_base _ _ _ _ _ _ HS) as (_ & _ & _ & _ & -> & _). apply Z.mod_pos_bound. lia. }
  - left. rewrite T in H. cbn [cut_short] in H. subst f. apply (zero_window _ (Z.to_nat ds)); [destruct st_off as (_ & DR & _); lia|apply body_zero].
  - right. rewrite T in *. split; [discriminate|]. rewrite (proj2 st1_off) in TL. apply (cut_head _ (Z.to_nat ds)) in H; [|exact FI|exact BZ|lia]. destruct H as (p & P & ->). exists (Z.of_nat p). split; [lia|].
    rewrite FE. unfold blanked, bytes_at. cbn [Z.to_nat skipn]. rewrite Nat2Z.id. replace (Z.to_nat (ds - Z.of_nat p)) with (Z.to_nat ds - p)%nat by lia. reflexivity.
Qed.
End Interrupted.
