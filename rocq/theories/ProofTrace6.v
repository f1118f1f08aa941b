(* ProofTrace6.v - chunks survive everything that happens after they are written *)
From Verif Require Import Base BaseFacts ModelFloat ModelKey ModelGeom ModelEntry ModelPoint ModelPoints ModelHeader ModelVlr ModelExtents ModelConfig
  ModelStream ModelWriter ModelReader ModelLazReader ModelTrace SpecKey SpecPoint SpecConfig SpecHeader SpecWriter SpecLaz SpecFile SpecCrash ProofStream ProofHeader ProofConfig
  ProofWriter ProofWriter2 ProofClose ProofClose2 ProofSession ProofLaz ProofReject ProofTrace ProofTrace2 ProofTrace3 ProofTrace4 ProofTrace5.

Lemma head_spares lo hi bs s : (length (concat bs) <= lo)%nat -> spares lo hi (SSeek 0 :: map SPut bs) s.
Proof. intros L. cbn [spares]. split; [exact I|]. apply puts_spares. cbn [do_sop]. unfold seek_to. destruct (o_bad s) eqn:B; [now left|]. right. cbn [o_pos]. lia. Qed.
Lemma window_bytes lo len d : 0 <= lo -> 0 <= len -> window (Z.to_nat lo) (Z.to_nat (lo + len)) d = bytes_at lo len d.
Proof. intros A B. unfold window, bytes_at. f_equal. lia. Qed.

Section Survive.
Variables (cd : codec) (od : orders) (w1 w2 : writer) (ops2 : list wop) (l2 : log) (f : bytes) (lo len : Z).
Hypothesis R : wrun cd ops2 w1 = (w2, l2).
Hypothesis G2 : cfg_ok (w_cfg w2).
Hypothesis P2 : 0 <= b_points (w_base w2) < 2 ^ 64.
Hypothesis LO : data_start (w_cfg w2) + 8 <= lo.
Hypothesis LEN : 0 <= len.
Hypothesis A1 : ahead (Z.to_nat (lo + len)) (b_out (w_base w1)).
Lemma survives : left_after cd od w1 ops2 f -> bytes_at lo len f = bytes_at lo len (file w1).
Proof.
  unfold left_after. rewrite R. cbn [fst]. intros H. destruct (copc_offset_ok _ G2) as (CO & DR).
  rewrite <- !window_bytes by lia. unfold file. refine (cut_window _ _ _ _ _ (ahead_solid _ _ A1) _ H).
  destruct (tame_spares (Z.to_nat lo) (Z.to_nat (lo + len)) (t_run cd ops2 w1) (b_out (w_base w1)) (run_tame cd ops2 w1) A1) as (S1 & A2).
  apply spares_app; [exact S1|]. rewrite play_run, R in *. cbn [fst] in *.
  apply spares_app; [apply (body_spares _ _ _ _ _ (data_start (w_cfg w2))); [exact CO|exact A2|right; lia]|].
  destruct (tail_shape cd od w2 G2 P2) as [->|(bs & -> & L)]; [exact I|]. apply head_spares. lia.
Qed.
End Survive.
Section LazSurvive.
Variables (cd : codec) (w1 w2 : laz_writer) (ops2 : list lop) (l2 : laz_log) (f : bytes) (lo len : Z).
Hypothesis R : lrun cd ops2 w1 = (w2, l2).
Hypothesis G2 : laz_ready (lw_cfg w2).
Hypothesis P2 : 0 <= b_points (lw_base w2) < 2 ^ 64.
Hypothesis Q2 : 0 <= b_evcnt (lw_base w2) < 2 ^ 32.
Hypothesis LO : laz_start (lw_cfg w2) + 8 <= lo.
Hypothesis LEN : 0 <= len.
Hypothesis A1 : ahead (Z.to_nat (lo + len)) (b_out (lw_base w1)).
Lemma laz_survives : laz_left_after cd w1 ops2 f -> bytes_at lo len f = bytes_at lo len (laz_file w1).
Proof.
  unfold laz_left_after. rewrite R. cbn [fst]. intros H. destruct (base_offset_ok _ G2) as (CO & DR).
  rewrite <- !window_bytes by lia. unfold laz_file. refine (cut_window _ _ _ _ _ (ahead_solid _ _ A1) _ H).
  destruct (tame_spares (Z.to_nat lo) (Z.to_nat (lo + len)) (t_laz_run cd ops2 w1) (b_out (lw_base w1)) (laz_run_tame cd ops2 w1) A1) as (S1 & A2).
  apply spares_app; [exact S1|]. rewrite play_laz_run, R in *. cbn [fst] in *.
  apply spares_app; [apply (base_body_spares _ _ _ _ _ (laz_start (lw_cfg w2))); [exact CO|exact A2|right; lia]|].
  destruct (base_tail_shape cd _ _ G2 P2 Q2) as [->|(bs & -> & L)]; [exact I|]. apply head_spares. lia.
Qed.
End LazSurvive.

Lemma run_trace_app cd a b : forall w w1 l1, wrun cd a w = (w1, l1) -> all_defined l1 -> t_run cd (a ++ b) w = t_run cd a w ++ t_run cd b w1.
Proof.
  induction a as [|op a IH]; intros w w1 l1 H D; cbn [wrun] in H; [injection H as <- <-; reflexivity|]. cbn [app t_run]. destruct (wstep cd op w) as (w2, r) eqn:E.
  assert (DR : r <> UB -> t_step cd op w ++ t_run cd (a ++ b) w2 = (t_step cd op w ++ t_run cd a w2) ++ t_run cd b w1).
  { intros NR. rewrite <- app_assoc. f_equal. destruct (wrun cd a w2) as (w3, l3) eqn:E3. apply (IH w2 w1 l3); [|destruct r; [injection H as <- <-; inversion D; assumption..|congruence]]. destruct r; [injection H as <- <-; exact E3..|congruence]. }
  destruct r; [apply DR; discriminate..|]. injection H as <- <-. inversion D as [|? ? X]; subst. now destruct X.
Qed.
Lemma chunk_survives cd od c v c0 ops1 ops2 w0 w1 w2 l1 l2 op n f : open_writer None c v = Ok w0 -> init_writer c v = Ok c0 -> ready c0 -> Forall wf_op ops1 -> Forall wf_op ops2 ->
  wrun cd ops1 w0 = (w1, l1) -> all_defined l1 -> wrun cd ops2 w1 = (w2, l2) -> Z.of_nat (length (file w2)) < 2 ^ 64 -> In (op, Ok (Some n)) l1 -> left_after cd od w1 ops2 f ->
  exists x, chunk_of cd (c_hdr c0) op = Some (x, e_count (n_entry n)) /\ bytes_at (e_offset (n_entry n)) (e_size (n_entry n)) f = x.
Proof.
  intros O E RD WF1 WF2 R1 D1 R2 L I F.
  assert (RA : wrun cd (ops1 ++ ops2) w0 = (w2, l1 ++ l2)) by (rewrite (wrun_app _ _ _ _ _ _ R1 D1), R2; reflexivity).
  destruct (run_history cd c v c0 (ops1 ++ ops2) w0 w2 (l1 ++ l2) O E RD) as (cs2 & H2); [now apply Forall_app|exact RA|exact L|].
  assert (L1 : Z.of_nat (length (file w1)) < 2 ^ 64).
  { assert (GE : (length (file w1) <= length (file w2))%nat); [|lia]. unfold file. pose proof (play_run cd ops2 w1) as PR. rewrite R2 in PR. cbn [fst] in PR. rewrite <- PR.
    assert (A : solid (length (o_data (b_out (w_base w1)))) (b_out (w_base w1))) by (right; lia). pose proof (play_solid _ (t_run cd ops2 w1) _ A) as S.
    destruct S as [S|S]; [|exact S]. exfalso. rewrite PR in S. destruct (hs_base _ _ _ _ _ _ H2) as ((X & _) & _). congruence. }
  destruct (run_history cd c v c0 ops1 w0 w1 l1 O E RD WF1 R1 L1) as (cs1 & H1).
  destruct (hs_nodes _ _ _ _ _ _ H1 _ _ I) as (_ & _ & x & CX & (pre & post & EC & EO & ES & SM)). exists x. split; [exact CX|].
  destruct (hs_base _ _ _ _ _ _ H1) as ((B1 & B2 & B3) & DT & _). destruct (copc_offset_ok _ (ready_ok _ RD)) as (_ & DR).
  assert (LC : length (cdata cs1) = (length (cdata pre) + length x + length (cdata post))%nat) by (rewrite EC; unfold cdata; rewrite map_app, concat_app, app_length; cbn [map concat fst]; rewrite app_length; lia).
  rewrite (survives cd od w1 w2 ops2 l2 f).
  - unfold file. rewrite DT, EC, EO, ES. replace (cdata (pre ++ (x, e_count (n_entry n)) :: post)) with (cdata pre ++ x ++ cdata post) by (unfold cdata; rewrite map_app, concat_app; reflexivity).
    rewrite app_assoc. apply ProofFile.bytes_at_mid; [rewrite app_length, zeros_length; lia|reflexivity].
  - exact R2.
  - apply (hs_cfg _ _ _ _ _ _ H2).
  - destruct (hs_base _ _ _ _ _ _ H2) as (_ & _ & _ & _ & -> & _). apply Z.mod_pos_bound. lia.
  - rewrite (hs_start _ _ _ _ _ _ H2), EO. lia.
  - lia.
  - right. rewrite B3, DT, app_length, zeros_length. lia.
  - exact F.
Qed.

(* with ordered bounds a Close that gets as far as the header succeeds *)
Lemma tail_close cd od w : cfg_ok (w_cfg w) -> 0 <= b_points (w_base w) < 2 ^ 64 -> fine (b_out (w_base w)) -> ordered_bounds (c_hdr (w_cfg w)) -> t_tail cd od w <> [] -> snd (close cd od w) = Ok tt.
Proof.
  intros G P F OB. unfold t_tail, before_header, close. destruct (negb _); [congruence|]. destruct (copc_offset_ok _ G) as (-> & R). set (ds := data_start (w_cfg w)) in *.
  pose proof (play_table cd ds (w_base w)) as PT. destruct (write_chunk_table cd ds (w_base w)) as (b1, [u| |]) eqn:E1; [|congruence..]. cbn [fst] in PT.
  assert (F1 : fine (b_out b1)) by (rewrite <- PT; now apply play_fine).
  assert (P1 : b_points b1 = b_points (w_base w)).
  { unfold write_chunk_table in E1. cbv zeta in E1. destruct (Z.ltb _ _); apply (f_equal fst) in E1; cbn [fst] in E1; rewrite <- E1; reflexivity. }
  change (with_base (mkBW (b_out (with_out (seek_end (b_out b1)) b1)) (b_open (with_out (seek_end (b_out b1)) b1)) (b_chunks (with_out (seek_end (b_out b1)) b1)) (b_points (with_out (seek_end (b_out b1)) b1)) (tell64 (b_out (with_out (seek_end (b_out b1)) b1))) (to_u 32 (b_evcnt (with_out (seek_end (b_out b1)) b1) + Z.of_nat (length (w_pages w))))) w) with (after_table b1 w).
  cbv zeta. assert (F2 : fine (b_out (w_base (after_table b1 w)))) by (apply (sop_fine SEnd) in F1; exact F1).
  assert (X2 : b_points (w_base (after_table b1 w)) = b_points (w_base w) /\ w_cfg (after_table b1 w) = w_cfg w /\ 0 <= b_evoff (w_base (after_table b1 w)) < 2 ^ 64 /\ 0 <= b_evcnt (w_base (after_table b1 w)) < 2 ^ 32).
  { unfold after_table. cbn [with_base w_base b_evoff b_points w_cfg with_out b_evcnt]. split; [exact P1|]. split; [reflexivity|]. split; apply Z.mod_pos_bound; lia. }
  set (w2 := after_table b1 w) in *. clearbody w2. destruct X2 as (X1 & X2 & X3 & X4). destruct (compute_hierarchy _ _) as [pages| |]; [|congruence..].
  match goal with |- context [write_page_tree ?n od root_key ?x] => set (w3 := x); pose proof (tree_keeps od n root_key w3) as K; pose proof (play_tree od n root_key w3) as PL; destruct (write_page_tree n od root_key w3) as (w4, [v| |]); [|congruence..] end.
  cbn [fst then_] in *. destruct K as (K1 & K2 & K3 & K4 & K5 & K6). cbn [w3 w_base w_cfg] in K1, K2, K3, K4, K5, K6. intros _.
  assert (F4 : fine (b_out (w_base w4))) by (rewrite <- PL; apply play_fine; exact F2).
  set (w5 := with_base (write_wkt (c_wkt (w_cfg w4)) (w_base w4)) w4).
  assert (F5 : fine (b_out (w_base w5))).
  { unfold w5. cbn [with_base w_base]. rewrite <- play_wkt. now apply play_fine. }
  assert (G5 : cfg_ok (w_cfg w5)) by (apply K1; now rewrite X2).
  assert (D5 : data_start (w_cfg w5) = ds) by (unfold ds; rewrite <- X2; exact K2).
  assert (O5 : ordered_bounds (c_hdr (w_cfg w5))) by (unfold w5; cbn [with_base w_cfg]; now rewrite K3, X2).
  assert (FT : fits ds (b_points (w_base w5)) (b_evoff (w_base w5)) (b_evcnt (w_base w5))).
  { unfold w5, write_wkt. cbn [with_base w_base]. split; [lia|].
    destruct (c_wkt (w_cfg w4)); cbn [emit with_out b_points b_evoff b_evcnt]; rewrite K4, K5, ?K6, ?X1; (split; [exact P|split; [exact X3|]]); [exact X4|apply Z.mod_pos_bound; lia]. }
  clearbody w5. clear - G5 D5 O5 FT F5 R.
  unfold copc_write_header, write_las_header. set (c := w_cfg w5) in *. destruct (good_eb_size _ G5) as (E & _ & _ & E2 & _).
  destruct (to_lazperf_defined (c_hdr c) ds (b_points (w_base w5)) (b_evoff (w_base w5)) (b_evcnt (w_base w5)) (negb (eb_total (c_ebs c) =? 0)) (xs_ext (c_exts c))) as (l & TL); [intros _; apply G5|].
  assert (HL : length (enc_header14 l) = 375%nat) by (eapply header_written_length; [apply G5|exact FT|exact TL]).
  rewrite E, E2. cbn [bind]. rewrite TL. destruct (copc_vlrs_spec _ G5) as [(-> & _)|(_ & N)]; [|contradiction].
  pose proof (vlr_part_length _ G5) as VL. assert (SL : 0 <= slack c) by (unfold slack; destruct (_ && _); lia).
  unfold emit. cbn [with_out b_out].
  assert (FS : fine (seek_to 0 (b_out (w_base w5)))) by (apply (sop_fine (SSeek 0)); exact F5).
  assert (FP : fine (put (enc_header14 l) (seek_to 0 (b_out (w_base w5))))) by (apply (sop_fine (SPut (enc_header14 l))); exact FS).
  rewrite (put_fine (vlr_part c)) by exact FP. rewrite (put_fine (enc_header14 l)) by exact FS. cbn [o_pos].
  assert (PZ : o_pos (seek_to 0 (b_out (w_base w5))) = 0%nat) by (unfold seek_to; destruct F5 as (-> & _); reflexivity).
  unfold tell64 at 1. cbn [o_bad o_pos]. rewrite PZ, HL. fold c in D5.
  replace (ds <? _) with false; [reflexivity|]. symmetry. apply Z.ltb_ge. unfold to_u. rewrite Z.mod_small; lia.
Qed.
