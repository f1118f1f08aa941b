(* ProofClose2.v - Close as a whole *)
From Coq Require Import Permutation.
From Verif Require Import Base BaseFacts ModelFloat ModelKey ModelGeom ModelEntry ModelPoint ModelPoints ModelHeader ModelVlr ModelExtents ModelConfig
  ModelStream ModelWriter SpecKey SpecPoint SpecConfig SpecHeader SpecWriter SpecHier ProofKey ProofPoint ProofPoint2 ProofHeader ProofExtents ProofConfig
  ProofStream ProofWriter ProofWriter2 ProofWriter3 ProofTree ProofPages ProofClose.

Definition ev_start (cd : codec) (c : config) (cs : list (bytes * Z)) : Z := data_start c + Z.of_nat (length (data_section cd (data_start c) cs)).
Definition ev_count (c : config) (n : nat) : Z :=
  match c_wkt c with [] => to_u 32 (Z.of_nat n) | _ => to_u 32 (to_u 32 (Z.of_nat n) + 1) end.
Record closed (cd : codec) (od : orders) (w : writer) (cs : list (bytes * Z)) (PG : kmap wpage) (ws : list page_info) (l : header14) (w' : writer) : Prop := {
  cl_tree : tree PG;
  cl_keys : forall q, In q (map fst PG) <-> In q (map fst (w_pages w));
  cl_nodes : forall q, match mget q PG, mget q (w_pages w) with Some A, Some B => wp_nodes A = wp_nodes B | None, None => True | _, _ => False end;
  cl_perm : Permutation (map pi_key ws) (map fst PG);
  cl_at : pages_at od PG (zeros (Z.to_nat (data_start (w_cfg w))) ++ data_section cd (data_start (w_cfg w)) cs) ws;
  cl_cfg : w_cfg w' = cfg_with (w_cfg w) ws;
  cl_hdr : to_lazperf (c_hdr (w_cfg w)) (data_start (w_cfg w)) (to_u 64 (total_points cs)) (ev_start cd (w_cfg w) cs)
             (ev_count (w_cfg w) (length (w_pages w))) (negb (eb_total (c_ebs (w_cfg w)) =? 0)) (xs_ext (c_exts (w_cfg w))) = Ok l;
  cl_hlen : length (enc_header14 l) = 375%nat;
  cl_file : file w' = (enc_header14 l ++ vlr_part (w_cfg w') ++ zeros (Z.to_nat (slack (w_cfg w)))) ++
             data_section cd (data_start (w_cfg w)) cs ++ concat (map (blob od) ws) ++ wkt_record (c_wkt (w_cfg w));
  cl_bounds : ordered_bounds (c_hdr (w_cfg w));
  cl_ok : cfg_ok (w_cfg w');
  cl_count : Z.of_nat (length cs) <= UINT32_MAX;
  cl_open : b_open (w_base w') = false;
  cl_stream : o_bad (b_out (w_base w')) = false /\ Z.of_nat (o_pos (b_out (w_base w'))) = data_start (w_cfg w) - slack (w_cfg w) /\ o_cap (b_out (w_base w')) = None;
  cl_loaded : w_loaded w' = w_loaded w }.

Lemma cfg_with_parts c ws : c_hdr (cfg_with c ws) = c_hdr c /\ c_wkt (cfg_with c ws) = c_wkt c /\ c_ebs (cfg_with c ws) = c_ebs c /\ c_exts (cfg_with c ws) = c_exts c.
Proof. unfold cfg_with. destruct (find_page root_key ws); repeat split. Qed.
Lemma pages_at_range od PG D ws : pages_at od PG D ws -> forall i, In i ws -> 0 <= pi_size i <= INT32_MAX /\ 
  0 <= pi_off i /\ pi_off i <= Z.of_nat (length (D ++ concat (map (blob od) ws))).
Proof.
  intros H. induction H as [|ws k P H IH E1 E2 E3 size FIT]; intros i I; [destruct I|].
  apply in_app_iff in I as [I|[<-|[]]].
  - destruct (IH i I) as (A & B & C). rewrite map_app, concat_app, app_assoc, app_length. lia.
  - cbn [pi_off pi_size]. unfold size. split; [lia|]. rewrite map_app, concat_app, app_assoc, app_length. cbn [map concat]. unfold blob, page_header.
    rewrite !app_length, evlr_header_length. lia.
Qed.
Lemma cfg_with_ok c ws : cfg_ok c -> (forall i, In i ws -> 0 <= pi_size i < 2 ^ 64 /\ 0 <= pi_off i < 2 ^ 64) -> cfg_ok (cfg_with c ws).
Proof.
  intros G R. unfold cfg_with. destruct (find_page root_key ws) as [i|] eqn:E; [|exact G]. apply find_page_key in E as (_ & I). destruct (R i I) as (A & B).
  destruct G as (G1 & G2 & G3 & G4 & G5 & G6 & G7 & G8 & G9). unfold cfg_ok, set_root. cbn [c_hdr c_wkt c_ebs c_info c_exts]. repeat (split; [assumption|]).
  split; [|assumption]. split; cbn; lia.
Qed.
Lemma slack_with c ws : slack (cfg_with c ws) = slack c.
Proof. destruct (cfg_with_parts c ws) as (_ & _ & E & _). unfold slack. now rewrite E. Qed.
Lemma start_with c ws : data_start (cfg_with c ws) = data_start c.
Proof. destruct (cfg_with_parts c ws) as (A & _ & B & C). unfold data_start. now rewrite A, B, C. Qed.

Lemma data_section_length cd ds cs : Z.of_nat (length (data_section cd ds cs)) = 8 + Z.of_nat (length (cdata cs)) + Z.of_nat (length (table_bytes cd cs)).
Proof. unfold data_section. rewrite !app_length. unfold enc_u64. rewrite le_enc_length. lia. Qed.

(* header and VLRs over the reserved space *)
Lemma write_header_spec w D b0 ds l w' r : cfg_ok (w_cfg w) -> w_base w = outb (zeros (Z.to_nat ds) ++ D) b0 -> ds = data_start (w_cfg w) ->
  to_lazperf (c_hdr (w_cfg w)) ds (b_points b0) (b_evoff b0) (b_evcnt b0) (negb (eb_total (c_ebs (w_cfg w)) =? 0)) (xs_ext (c_exts (w_cfg w))) = Ok l ->
  length (enc_header14 l) = 375%nat ->
  copc_write_header ds w = (w', r) ->
  (r = Throw /\ ~ ordered_bounds (c_hdr (w_cfg w))) \/
  (r = Ok tt /\ ordered_bounds (c_hdr (w_cfg w)) /\ let H := enc_header14 l ++ vlr_part (w_cfg w) in
   w' = with_base (with_out (mkOut (H ++ zeros (Z.to_nat (slack (w_cfg w))) ++ D) (length H) false None) b0) w).
Proof.
  intros G B DS TL HL H. unfold copc_write_header, write_las_header in H. destruct (good_eb_size _ G) as (E & _ & _ & E2 & _).
  rewrite E, E2 in H. cbn [bind] in H. rewrite B in H. unfold outb in H at 1 2 3 4. cbn [with_out b_points b_evoff b_evcnt] in H. rewrite TL in H.
  assert (SD : 375 + Z.of_nat (length (vlr_part (w_cfg w))) + slack (w_cfg w) = ds) by (rewrite DS; now apply vlr_part_length).
  assert (SL : 0 <= slack (w_cfg w)) by (unfold slack; destruct (_ && _); lia).
  destruct (copc_vlrs_spec _ G) as [(V & BO)|(V & BO)]; rewrite V in H.
  - right. revert H. unfold emit. cbn [outb with_out b_out]. rewrite <- put_app.
    rewrite (header_area _ (zeros (Z.to_nat ds) ++ D)); [|now split|reflexivity|].
    2:{ rewrite !app_length, zeros_length, HL. lia. }
    set (HH := enc_header14 l ++ vlr_part (w_cfg w)).
    assert (LH : Z.of_nat (length HH) + slack (w_cfg w) = ds) by (unfold HH; rewrite app_length, HL; lia).
    assert (SK : skipn (length HH) (zeros (Z.to_nat ds) ++ D) = zeros (Z.to_nat (slack (w_cfg w))) ++ D).
    { replace (Z.to_nat ds) with (length HH + Z.to_nat (slack (w_cfg w)))%nat by lia. rewrite zeros_add, <- app_assoc. apply skip_app, zeros_length. }
    rewrite SK. rewrite tell64_small; [|now split|]; cbn [o_pos].
    2:{ destruct (copc_offset_ok _ G) as (_ & R). rewrite <- DS in R. lia. }
    destruct (Z.ltb_spec ds (Z.of_nat (length HH))); [lia|]. intros H0. pose proof (f_equal fst H0) as HW. pose proof (f_equal snd H0) as HR.
    cbn [fst snd] in HW, HR. split; [now symmetry|]. split; [exact BO|]. cbv zeta. rewrite <- HW. reflexivity.
  - left. split; [|exact BO]. apply (f_equal snd) in H. symmetry. exact H.
Qed.

Lemma evlr_wkt wkt d b : write_wkt wkt (outb d b) = outb (d ++ wkt_record wkt)
  (mkBW (b_out b) (b_open b) (b_chunks b) (b_points b) (b_evoff b) (match wkt with [] => b_evcnt b | _ => to_u 32 (b_evcnt b + 1) end)).
Proof.
  unfold write_wkt, wkt_record. destruct wkt as [|x wkt]; [rewrite app_nil_r; destruct b; reflexivity|].
  match goal with |- emit ?x ?y = _ => change y with (outb d (mkBW (b_out b) (b_open b) (b_chunks b) (b_points b) (b_evoff b) (to_u 32 (b_evcnt b + 1)))) end.
  apply emit_outb.
Qed.

(* no step shortens the file *)
Definition blen (b : bwriter) : nat := length (o_data (b_out b)).
Lemma put_ge x s : (length (o_data s) <= length (o_data (put x s)))%nat.
Proof. unfold put. destruct (o_bad s); [lia|]. apply splice_ge. Qed.
Lemma emit_ge x b : (blen b <= blen (emit x b))%nat.
Proof. apply put_ge. Qed.
Lemma seek_end_len s : length (o_data (seek_end s)) = length (o_data s).
Proof. unfold seek_end. now destruct (o_bad s). Qed.
Lemma seek_to_len p s : length (o_data (seek_to p s)) = length (o_data s).
Proof. unfold seek_to. now destruct (o_bad s). Qed.
Lemma write_page_ge od k w w' r : write_page od k w = (w', r) -> (blen (w_base w) <= blen (w_base w'))%nat.
Proof.
  unfold write_page. destruct (mget k (w_pages w)) as [P|]; [|intros H; injection H as <- _; lia]. cbv zeta.
  set (b1 := emit _ _). assert (L1 : (blen (w_base w) <= blen b1)%nat).
  { unfold b1. eapply Nat.le_trans; [|apply emit_ge]. unfold blen. cbn [with_out b_out]. rewrite seek_end_len. lia. }
  clearbody b1. destruct (INT32_MAX <? _); intros H; apply (f_equal fst) in H; cbn [fst] in H; subst w'; [exact L1|].
  destruct (key_eqb k root_key); cbn [w_cfg w_base with_cfg w_pages w_loaded with_base]; (eapply Nat.le_trans; [exact L1|apply emit_ge]).
Qed.
Lemma each_ge {X} (f : X -> writer -> writer * outcome unit) l : (forall a w w' r, f a w = (w', r) -> (blen (w_base w) <= blen (w_base w'))%nat) ->
  forall w w' r, each f l w = (w', r) -> (blen (w_base w) <= blen (w_base w'))%nat.
Proof.
  intros Hf. induction l as [|a l IH]; intros w w' r H; cbn [each] in H; [injection H as <- _; lia|].
  destruct (f a w) as (w1, r1) eqn:E. pose proof (Hf _ _ _ _ E) as G. destruct r1 as [[]| |]; cbn [then_] in H; [|injection H as <- _; exact G..].
  apply IH in H. lia.
Qed.
Lemma tree_ge od : forall f k w w' r, write_page_tree f od k w = (w', r) -> (blen (w_base w) <= blen (w_base w'))%nat.
Proof.
  induction f as [|f IH]; intros k w w' r H; cbn [write_page_tree] in H; [injection H as <- _; lia|].
  destruct (mget k (w_pages w)) as [P|]; [|injection H as <- _; lia].
  destruct (each _ _ w) as (w1, r1) eqn:E. pose proof (each_ge _ _ IH _ _ _ E) as G.
  destruct r1 as [[]| |]; cbn [then_] in H; [|injection H as <- _; exact G..]. apply write_page_ge in H. lia.
Qed.
Lemma copc_header_ge poff w w' r : copc_write_header poff w = (w', r) -> (blen (w_base w) <= blen (w_base w'))%nat.
Proof.
  unfold copc_write_header, write_las_header. destruct (let! eb := _ in _) as [l| |]; [|intros H; injection H as <- _; cbn; lia..].
  set (b1 := emit _ _). assert (L1 : (blen (w_base w) <= blen b1)%nat).
  { unfold b1. eapply Nat.le_trans; [|apply emit_ge]. unfold blen. cbn [with_out b_out]. rewrite seek_to_len. lia. }
  clearbody b1. destruct (copc_vlrs (w_cfg w)) as [v| |]; [|intros H; apply (f_equal fst) in H; cbn [fst] in H; subst w'; cbn [with_base w_base]; try (eapply Nat.le_trans; [exact L1|apply emit_ge]); exact L1..].
  cbv zeta. pose proof (emit_ge v b1). destruct (poff <? _); intros H0; apply (f_equal fst) in H0; cbn [fst] in H0; subst w'; cbn [with_base w_base]; lia.
Qed.
Lemma wkt_ge wkt b : (blen b <= blen (write_wkt wkt b))%nat.
Proof. unfold write_wkt. destruct wkt as [|x wkt]; [lia|]. eapply Nat.le_trans; [|apply emit_ge]. reflexivity. Qed.

Definition orphan (w : writer) : Prop := exists k, In k (map fst (w_pages w)) /\ k <> root_key /\ forall q, In q (map fst (w_pages w)) -> child_of k q = true -> q = k.
Lemma close_spec cd od w cs w' r : reorders od -> cfg_ok (w_cfg w) -> binv (data_start (w_cfg w) + 8) cs (w_base w) ->
  NoDup (map fst (w_pages w)) -> all_valid (w_pages w) -> In root_key (map fst (w_pages w)) -> (forall p P, mget p (w_pages w) = Some P -> wp_subs P = []) ->
  close cd od w = (w', r) -> Z.of_nat (length (file w')) < 2 ^ 64 ->
  (r = Throw /\ (UINT32_MAX < Z.of_nat (length cs) \/ orphan w \/ (exists PG, compute_hierarchy (map fst (w_pages w)) (w_pages w) = Ok PG /\ oversize PG) \/ ~ ordered_bounds (c_hdr (w_cfg w)))) \/
  (r = Ok tt /\ exists PG ws l, closed cd od w cs PG ws l w').
Proof.
  intros (RN & RO) G I ND AV RT NS H LEN. destruct (copc_offset_ok _ G) as (CO & DR). unfold close in H.
  pose proof I as (A & DT & O & _). rewrite O, CO in H. cbn [negb] in H. set (ds := data_start (w_cfg w)) in *.
  destruct (write_chunk_table cd ds (w_base w)) as (b1, r1) eqn:E1.
  change (length (file w')) with (blen (w_base w')) in LEN.
  assert (L1 : Z.of_nat (blen b1) < 2 ^ 64).
  { destruct r1 as [[]| |]; [|injection H as <- _; exact LEN..]. revert H. cbv zeta. set (w2 := with_base _ w).
    assert (LW : blen (w_base w2) = blen b1) by (unfold w2, blen; cbn [with_base w_base b_out with_out]; now rewrite seek_end_len). clearbody w2.
    destruct (compute_hierarchy _ _) as [PG| |]; [|intros H; injection H as <- _; rewrite <- LW; exact LEN..].
    destruct (write_page_tree _ od root_key _) as (w3, r3) eqn:E3. apply tree_ge in E3. cbn [w_base] in E3.
    destruct r3 as [[]| |]; cbn [then_]; [|intros H; injection H as <- _; lia..].
    destruct (copc_write_header ds _) as (w4, r4) eqn:E4. apply copc_header_ge in E4. cbn [with_base w_base] in E4.
    pose proof (wkt_ge (c_wkt (w_cfg w3)) (w_base w3)).
    destruct r4 as [[]| |]; cbn [then_]; intros H4; apply (f_equal fst) in H4; cbn [fst] in H4; subst w'; cbn [with_base w_base] in LEN; unfold blen in *; cbn [b_out] in LEN; lia. }
  destruct (chunk_table_spec cd ds cs _ _ _ ltac:(lia) I E1 L1) as [(-> & BIG)|(-> & CC & EB)].
  { left. apply (f_equal snd) in H. split; [symmetry; exact H|now left]. }
  cbv zeta in H. rewrite EB in H. cbn [with_out b_out] in H. rewrite seek_end_at in H by now split. cbn [o_data with_base b_chunks b_points b_evcnt b_open b_out w_pages w_base w_cfg w_loaded with_out] in H.
  set (D1 := zeros (Z.to_nat ds) ++ data_section cd ds cs) in *.
  assert (LD1 : Z.of_nat (length D1) = ev_start cd (w_cfg w) cs) by (unfold D1, ev_start; rewrite app_length, zeros_length; fold ds; lia).
  assert (L1' : Z.of_nat (length D1) < 2 ^ 64) by (rewrite EB in L1; exact L1).
  rewrite tell64_small in H by (now split || exact L1'). cbn [o_pos] in H. rewrite LD1 in H.
  assert (NB : forall p P, mget p (w_pages w) = Some P -> wp_subs P = []) by exact NS.
  destruct (compute_tree (w_pages w) ND AV RT NB) as [(PG & EC & T & HK & HN)|(EC & k & OR)]; rewrite EC in H.
  2:{ left. apply (f_equal snd) in H. split; [symmetry; exact H|right; left; now exists k]. }
  set (b2 := mkBW _ true (chunk_sizes cs) (to_u 64 (total_points cs)) (ev_start cd (w_cfg w) cs) (to_u 32 (0 + Z.of_nat (length (w_pages w))))) in H.
  set (w0 := mkW b2 (w_cfg w) (w_loaded w) PG) in H.
  destruct (write_page_tree (S (Z.to_nat (max_page_depth PG))) od root_key w0) as (w3, r3) eqn:E3.
  assert (I0 : pinv od PG w0 [] w0).
  { constructor; try reflexivity.
    - constructor.
    - cbn [map concat]. now rewrite app_nil_r.
    - intros k. unfold written, w0. cbn [w_pages find_page find]. now destruct (mget k PG). }
  assert (L3 : Z.of_nat (blen (w_base w3)) < 2 ^ 64).
  { destruct r3 as [[]| |]; cbn [then_] in H; [|injection H as <- _; exact LEN..].
    destruct (copc_write_header ds _) as (w4, r4) eqn:E4. apply copc_header_ge in E4. cbn [with_base w_base] in E4.
    pose proof (wkt_ge (c_wkt (w_cfg w3)) (w_base w3)).
    destruct r4 as [[]| |]; cbn [then_] in H; apply (f_equal fst) in H; cbn [fst] in H; subst w'; cbn [with_base w_base] in LEN; unfold blen in *; cbn [b_out] in LEN; lia. }
  destruct (write_tree_spec od PG (max_page_depth PG) w0 RN RO T (fun k => max_page_depth_ge PG) (S (Z.to_nat (max_page_depth PG))) root_key w0 w3 r3 [] I0 (tr_root _ T)) as [(-> & OV)|(-> & ws & EK & I3)];
    [cbn [kd root_key]; lia|reflexivity|exact E3|exact L3| |]; cbn [then_] in H.
  { left. apply (f_equal snd) in H. split; [symmetry; exact H|]. right; right; left. now exists PG. }
  cbn [app] in I3. pose proof (post_all od PG (max_page_depth PG) RO T (fun k => max_page_depth_ge PG)) as PA. rewrite <- EK in PA.
  pose proof I3 as [PAT PB PF PC PL PP]. 
  assert (RANGE : forall i, In i ws -> 0 <= pi_size i < 2 ^ 64 /\ 0 <= pi_off i < 2 ^ 64).
  { intros i Hi. destruct (pages_at_range _ _ _ _ PAT i Hi) as (X & Y & Z'). rewrite <- PF in Z'. unfold INT32_MAX in X. change (length (file w3)) with (blen (w_base w3)) in Z'. lia. }
  pose proof (cfg_with_ok _ _ G RANGE) as G3. change (w_cfg w0) with (w_cfg w) in PC. rewrite <- PC in G3.
  destruct (cfg_with_parts (w_cfg w) ws) as (P1 & P2 & P3 & P4). rewrite <- PC in P1, P2, P3, P4.
  pose proof (start_with (w_cfg w) ws) as SW. pose proof (slack_with (w_cfg w) ws) as KW. rewrite <- PC in SW, KW. fold ds in SW.
  set (w4 := with_base (write_wkt (c_wkt (w_cfg w3)) (w_base w3)) w3) in H.
  set (b4 := mkBW (b_out b2) true (chunk_sizes cs) (to_u 64 (total_points cs)) (ev_start cd (w_cfg w) cs) (ev_count (w_cfg w) (length (w_pages w)))).
  assert (B4 : w_base w4 = outb (zeros (Z.to_nat ds) ++ (data_section cd ds cs ++ concat (map (blob od) ws) ++ wkt_record (c_wkt (w_cfg w)))) b4).
  { unfold w4. cbn [with_base w_base]. rewrite PB. fold (outb (file w3) (w_base w0)). rewrite evlr_wkt, P2, PF. unfold b4, w0, b2, file, D1.
    cbn [w_base b_out o_data b_open b_chunks b_points b_evoff b_evcnt]. rewrite <- !app_assoc. unfold ev_count.
    destruct (c_wkt (w_cfg w)); reflexivity. }
  assert (C4 : w_cfg w4 = w_cfg w3) by reflexivity.
  assert (FITS : fits ds (to_u 64 (total_points cs)) (ev_start cd (w_cfg w) cs) (ev_count (w_cfg w) (length (w_pages w)))).
  { unfold fits. rewrite <- LD1. split; [lia|]. split; [unfold to_u; apply Z.mod_pos_bound; lia|]. split; [lia|].
    unfold ev_count, to_u. destruct (c_wkt (w_cfg w)); apply Z.mod_pos_bound; lia. }
  destruct (to_lazperf_defined (c_hdr (w_cfg w)) ds (to_u 64 (total_points cs)) (ev_start cd (w_cfg w) cs) (ev_count (w_cfg w) (length (w_pages w)))
    (negb (eb_total (c_ebs (w_cfg w)) =? 0)) (xs_ext (c_exts (w_cfg w))) (fun _ => proj1 G)) as (l & TL).
  assert (WH : wf_hdr (c_hdr (w_cfg w))) by apply G.
  assert (HL : length (enc_header14 l) = 375%nat) by (eapply header_written_length; eauto).
  destruct (copc_write_header ds w4) as (w5, r5) eqn:E5.
  assert (G4 : cfg_ok (w_cfg w4)) by (rewrite C4; exact G3).
  assert (TL4 : to_lazperf (c_hdr (w_cfg w4)) ds (b_points b4) (b_evoff b4) (b_evcnt b4) (negb (eb_total (c_ebs (w_cfg w4)) =? 0)) (xs_ext (c_exts (w_cfg w4))) = Ok l).
  { rewrite C4, P1, P3, P4. exact TL. }
  destruct (write_header_spec w4 _ b4 ds l w5 r5 G4 B4 ltac:(rewrite C4; now symmetry) TL4 HL E5) as [(-> & BO)|(-> & BO & EW)]; cbn [then_] in H.
  { left. apply (f_equal snd) in H. split; [symmetry; exact H|]. right; right; right. now rewrite C4, P1 in BO. }
  right. pose proof (f_equal fst H) as HW. pose proof (f_equal snd H) as HR. cbn [fst snd] in HW, HR. split; [now symmetry|].
  exists PG, ws, l. subst w'. rewrite EW. rewrite C4 in *. rewrite KW.
  assert (VL : 375 + Z.of_nat (length (vlr_part (w_cfg w3))) + slack (w_cfg w3) = ds) by (rewrite (vlr_part_length _ G3); exact SW). rewrite KW in VL.
  constructor; cbn [with_base w_base w_cfg w_loaded b_open b_out o_bad o_pos o_cap with_out]; try assumption.
  - intros q. specialize (HN q). destruct (mget q PG), (mget q (w_pages w)); tauto.
  - unfold file; cbn [with_base w_base b_out o_data with_out]. rewrite <- !app_assoc. rewrite C4. reflexivity.
  - now rewrite <- P1.
  - reflexivity.
  - split; [reflexivity|]. split; [|reflexivity]. rewrite app_length, HL. fold ds. lia.
Qed.
