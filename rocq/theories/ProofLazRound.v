(* ProofLazRound.v - reading back what a LazWriter wrote *)
From Verif Require Import Base BaseFacts ModelFloat ModelKey ModelGeom ModelEntry ModelPoint ModelPoints ModelHeader ModelVlr ModelExtents ModelConfig
  ModelStream ModelWriter ModelReader ModelLazReader SpecKey SpecPoint SpecPoints SpecConfig SpecHeader SpecWriter SpecLaz SpecHier SpecFile SpecData SpecRound SpecLazRound ProofKey ProofPoint ProofPoint2 ProofPoints ProofHeader ProofExtents ProofConfig
  ProofStream ProofWriter ProofWriter2 ProofWriter3 ProofWriter4 ProofTree ProofPages ProofClose ProofClose2 ProofSession ProofFile ProofLaz ProofData ProofOpen2 ProofRound.

Section Opened.
Variables (cd : codec) (z : laz_config) (cs : list (bytes * Z)) (l : header14) (w : laz_writer).
Hypotheses (C : closed_laz cd z cs l w) (G : laz_ready z) (LEN : Z.of_nat (length (laz_file w)) < 2 ^ 64).
Hypotheses (EB : (length (z_ebs z) <= 341)%nat) (ET : Forall wf_eb_text (z_ebs z)) (WK : Z.of_nat (length (z_wkt z)) < 2 ^ 31).
Hypotheses (ID1 : id_string 16 (h_guid (z_hdr z))) (ID2 : id_string 32 (h_sys (z_hdr z))) (ID3 : id_string 32 (h_gen (z_hdr z))).
Let f := laz_file w.
Let rs := laz_recs z.
Let evs := match z_wkt z with [] => [] | _ => [(wkt_evlr_header (z_wkt z), z_wkt z)] end.
Let ds := laz_start z.
Let ev := ds + Z.of_nat (length (data_section cd ds cs)).
Let m := listed false 375 rs ++ listed true ev evs.
Lemma lo_f1 : exists post, f = enc_header14 l ++ recs_bytes false rs ++ post.
Proof. unfold f. rewrite (laz_split _ _ _ _ _ C). unfold laz_head. rewrite laz_vlrs_recs, <- !app_assoc. eauto. Qed.
Lemma lo_f2 : exists pre, f = pre ++ recs_bytes true evs ++ [] /\ ev = Z.of_nat (length pre).
Proof.
  exists (laz_head z l ++ data_section cd ds cs). split.
  - unfold f. rewrite (laz_split _ _ _ _ _ C), app_nil_r, <- app_assoc. do 2 f_equal. unfold evs, wkt_record, recs_bytes, rec_bytes. destruct (z_wkt z); cbn [map concat fst snd]; rewrite ?app_nil_r; reflexivity.
  - unfold ev. rewrite app_length, Nat2Z.inj_add, (laz_head_length _ _ _ _ _ C G). reflexivity.
Qed.
Lemma lo_recs : Forall (rec_ok false) rs /\ Forall (rec_ok true) evs.
Proof.
  split.
  - destruct (laz_eb _ G) as (_ & B & _). destruct G as (_ & F & _ & _ & _ & WE & _). unfold rs, laz_recs. rewrite !Forall_app. split.
    + destruct (0 <? _); [|constructor]. constructor; [|constructor]. unfold rec_ok. cbn [fst snd v_len eb_vlr_header].
      rewrite enc_ebs_length by exact WE. unfold eb_vlr_size, to_u. cbn match. rewrite Z.mod_small; lia.
    + constructor; [|constructor]. unfold rec_ok. cbn [fst snd v_len laz_vlr_header]. rewrite enc_laz_length by lia.
      unfold laz_vlr_size. rewrite laz_items_length by lia. unfold to_u.
      destruct (_ =? 6), (eb_total _ =? 0); split; reflexivity.
  - unfold evs. destruct (z_wkt z) as [|a b]; constructor; [|constructor]. split; [reflexivity|]. cbn [snd]. change (2 ^ 31) with 2147483648 in WK. change (2 ^ (8 * rec_lenw true)) with (2 ^ 64). lia.
Qed.
Lemma lo_ids : Forall ids_ok rs /\ Forall ids_ok evs.
Proof.
  split.
  - unfold rs, laz_recs. apply Forall_app. split; [destruct (0 <? eb_total (z_ebs z))|]; repeat constructor; cbn; lia.
  - unfold evs. destruct (z_wkt z); repeat constructor; cbn; lia.
Qed.
Lemma lo_below : 375 + Z.of_nat (length (recs_bytes false rs)) <= ev.
Proof.
  pose proof (laz_head_length _ _ _ _ _ C G) as H. unfold laz_head in H. rewrite !app_length, (lc_len _ _ _ _ _ C), laz_vlrs_recs in H. fold rs in H. unfold ev, ds. lia.
Qed.
Lemma lo_below' : Forall (fun p => fst p < ev) (listed false 375 rs).
Proof. pose proof lo_below as B. eapply Forall_impl; [|apply listed_below]. cbv beta. intros a Ha. clear - B Ha. lia. Qed.
Lemma lo_fits : fits ds (to_u 64 (total_points cs)) ev (Z.of_nat (length evs)).
Proof.
  destruct (base_offset_ok _ G) as (_ & DR). fold ds in DR. split; [lia|]. split; [unfold to_u; apply Z.mod_pos_bound; lia|].
  destruct lo_f2 as (pre & E2 & E3). fold f in LEN. rewrite E2, app_length in LEN. split; [lia|]. unfold evs. destruct (z_wkt z); cbn [length]; lia.
Qed.
Lemma lo_lazperf : to_lazperf (z_hdr z) ds (to_u 64 (total_points cs)) ev (Z.of_nat (length evs)) (negb (eb_total (z_ebs z) =? 0)) false = Ok l.
Proof.
  pose proof (lc_hdr _ _ _ _ _ C) as H. fold ds ev in H. rewrite <- H. f_equal. unfold evs. destruct (z_wkt z); reflexivity.
Qed.
Lemma lo_fields : l_vlrs l = Z.of_nat (length rs) /\ l_evcnt l = Z.of_nat (length evs) /\ l_evoff l = ev /\ l_hsize l = 375 /\ l_fmt l = Z.lor (to_u 8 (h_fmt (z_hdr z))) 128.
Proof.
  pose proof lo_lazperf as H. destruct (laz_eb _ G) as (_ & EBN & _). destruct G as (CP & _). unfold to_lazperf in H. rewrite CP in H. cbn [bind] in H.
  apply (f_equal (fun o => match o with Ok a => a | _ => l end)) in H. rewrite <- H. cbn [l_vlrs l_evcnt l_evoff l_hsize l_fmt].
  split; [|auto]. unfold rs, laz_recs. destruct (Z.eqb_spec (eb_total (z_ebs z)) 0), (Z.ltb_spec 0 (eb_total (z_ebs z))); try (exfalso; lia); reflexivity.
Qed.
Lemma lo_read_h : read_header14 f = Ok (h14_masked l).
Proof.
  destruct lo_fields as (_ & _ & _ & _ & E). destruct lo_f1 as (post & EF). rewrite EF. pose proof G as (_ & F & _ & _ & W & _).
  destruct (fmt_mask (h_fmt (z_hdr z))) as (M1 & M2); [lia|lia|].
  apply read_header14_enc; [exact (to_lazperf_wf _ _ _ _ _ _ _ _ W lo_fits lo_lazperf)|]. now rewrite E.
Qed.
Definition lo_hdr : las_header :=
  mkHdr (h_src (z_hdr z)) (Z.lor (h_enc (z_hdr z)) 16) (h_day (z_hdr z)) (h_year (z_hdr z)) (h_max (z_hdr z)) (h_min (z_hdr z)) (h_pbr (z_hdr z)) (h_scale (z_hdr z)) (h_offset (z_hdr z))
    (h_fmt (z_hdr z)) (h_reclen (z_hdr z)) (to_u 64 (total_points cs)) ds (Z.of_nat (length rs)) ev (Z.of_nat (length evs)) (h_guid (z_hdr z)) (h_sys (z_hdr z)) (h_gen (z_hdr z)) true.
Lemma lo_header : from_lazperf (h14_masked l) = Ok lo_hdr.
Proof.
  destruct lo_f1 as (post & EF). pose proof G as (CP & F & _ & _ & WH & _).
  destruct (header_roundtrip _ _ _ _ _ _ _ l (recs_bytes false rs ++ post) WH lo_fits F ID1 ID2 ID3 lo_lazperf) as (_ & R). rewrite <- EF in R. unfold read_las_header in R. rewrite lo_read_h in R. cbn [bind] in R. rewrite R.
  unfold lo_hdr. do 2 f_equal. destruct lo_fields as (<- & _). pose proof lo_lazperf as H. unfold to_lazperf in H. rewrite CP in *. cbn [bind] in H.
  apply (f_equal (fun o => match o with Ok a => a | _ => l end)) in H. rewrite <- H. cbn [l_vlrs]. unfold announced_vlrs. destruct (negb _); reflexivity.
Qed.
Lemma lo_map : read_all_vlrs (h14_masked l) f = Ok m.
Proof.
  unfold read_all_vlrs, h14_masked. cbn [l_vlrs l_hsize l_evcnt l_evoff]. destruct lo_fields as (-> & -> & -> & -> & _). rewrite !Nat2Z.id.
  destruct lo_recs as (O1 & O2). destruct lo_ids as (I1 & I2). destruct lo_f1 as (post & E1). destruct lo_f2 as (pre & E2 & EP).
  pose proof (read_recs false rs (enc_header14 l) post 375 []) as R1. cbn [dec_of rec_head] in R1. change EVLR_HEADER_SIZE with 60. change VLR_HEADER_SIZE with 54.
  rewrite E1 at 1. rewrite R1; [|now rewrite (lc_len _ _ _ _ _ C)|exact O1|exact I1|constructor]. cbn [bind app].
  pose proof (read_recs true evs pre [] ev (listed false 375 rs)) as R2. cbn [dec_of rec_head] in R2. rewrite E2.
  apply R2; [exact EP|exact O2|exact I2|apply lo_below'].
Qed.
Lemma lo_find rs1 x rs2 user id : rs = rs1 ++ x :: rs2 -> misses user id rs1 -> hit user id x = true ->
  let off := fetch_vlr m user id in off = 375 + Z.of_nat (length (recs_bytes false rs1)) /\ (off =? 0) = false /\ len_at off m = Z.of_nat (length (snd x)) /\
  exists t, skipn (Z.to_nat (off + VLR_HEADER_SIZE)) f = snd x ++ t.
Proof.
  intros E M H. destruct lo_f1 as (post & EF). rewrite EF. destruct lo_recs as (O1 & _).
  assert (OX : rec_ok false x) by (rewrite Forall_forall in O1; apply O1; rewrite E; apply in_elt).
  pose proof (find_rec false rs1 x rs2 (enc_header14 l) post 375 [] (listed true ev evs) user id) as F. cbn [app] in F. rewrite <- E in F. fold m in F.
  apply F; [now rewrite (lc_len _ _ _ _ _ C)|lia|constructor|reflexivity|exact M|exact H|exact OX|]. pose proof (proj2 OX). cbn in *. lia.
Qed.
Lemma lo_find_e rs1 x rs2 user id : evs = rs1 ++ x :: rs2 -> misses user id rs -> misses user id rs1 -> hit user id x = true -> Z.of_nat (length (snd x)) < 2 ^ 31 ->
  let off := fetch_vlr m user id in (off =? 0) = false /\ len_at off m = Z.of_nat (length (snd x)) /\
  exists t, skipn (Z.to_nat (off + EVLR_HEADER_SIZE)) f = snd x ++ t.
Proof.
  intros E M0 M H L31. destruct lo_f2 as (pre & EF & EP). rewrite EF. destruct lo_recs as (_ & O1).
  assert (OX : rec_ok true x) by (rewrite Forall_forall in O1; apply O1; rewrite E; apply in_elt).
  pose proof (find_rec true rs1 x rs2 pre [] ev (listed false 375 rs) [] user id EP) as F. rewrite (app_nil_r (listed true ev _)) in F. rewrite <- E in F. fold m in F.
  pose proof lo_below. apply F; [lia|apply lo_below'|intros; now apply fetch_miss|exact M|exact H|exact OX|exact L31].
Qed.
Lemma lo_ebs : read_ebs m f = Ok (if 0 <? eb_total (z_ebs z) then z_ebs z else []).
Proof.
  unfold read_ebs. pose proof G as (_ & _ & _ & _ & _ & WE & _).
  assert (E : rs = laz_recs z) by reflexivity. unfold laz_recs in E. destruct (0 <? eb_total (z_ebs z)).
  - cbn [app] in E. destruct (lo_find [] _ _ s_las_spec 4 E (Forall_nil _) eq_refl) as (_ & B & L & t & T).
    rewrite B, L, T. cbn [snd]. rewrite enc_ebs_length by exact WE. change (192 * Z.of_nat (length (z_ebs z))) with (eb_vlr_size (z_ebs z)).
    rewrite dec_ebs_enc; [reflexivity|exact WE|exact ET].
  - assert (F : fetch_vlr m s_las_spec 4 = 0).
    { unfold m. rewrite fetch_miss.
      - rewrite <- (app_nil_r (listed true ev evs)), fetch_miss; [reflexivity|]. unfold evs. destruct (z_wkt z); repeat constructor.
      - rewrite E. cbn [app]. constructor; [|constructor]. apply laz_miss; [reflexivity|reflexivity|discriminate]. }
    rewrite F. reflexivity.
Qed.
Lemma lo_wkt : read_wkt m f = Ok (z_wkt z).
Proof.
  assert (M0 : misses s_las_proj 2112 rs).
  { unfold rs, laz_recs. apply Forall_app. split; [destruct (0 <? _); constructor; [reflexivity|constructor]|]. constructor; [|constructor]. apply laz_miss; [reflexivity|reflexivity|discriminate]. }
  unfold read_wkt. destruct (list_cases (z_wkt z)) as [EW|(b & r & EW)]; rewrite EW.
  - assert (F : fetch_vlr m s_las_proj 2112 = 0).
    { unfold m. rewrite fetch_miss by exact M0. rewrite <- (app_nil_r (listed true ev evs)), fetch_miss; [reflexivity|]. unfold evs. rewrite EW. constructor. }
    rewrite F. reflexivity.
  - assert (E : evs = [] ++ (wkt_evlr_header (b :: r), b :: r) :: []) by (unfold evs; now rewrite EW).
    assert (L31 : Z.of_nat (length (b :: r)) < 2 ^ 31) by (rewrite EW in WK; exact WK).
    destruct (lo_find_e _ _ _ s_las_proj 2112 E M0 (Forall_nil _) eq_refl L31) as (B & L & t & T). rewrite B, L, T. cbn [snd]. unfold dec_wkt.
    replace (_ <? 0) with false by lia. rewrite Nat2Z.id, take_app by reflexivity. reflexivity.
Qed.
Lemma lo_open : open_laz_reader f = Ok (mkLR f (mkLaz lo_hdr (z_wkt z) (if 0 <? eb_total (z_ebs z) then z_ebs z else []))).
Proof.
  unfold open_laz_reader, init_reader. rewrite lo_read_h. cbn [bind]. rewrite lo_header. cbn [bind]. rewrite lo_map. cbn [bind]. rewrite lo_wkt. cbn [bind]. rewrite lo_ebs. cbn [bind br_cfg]. reflexivity.
Qed.
End Opened.

(* ---- reading the points ---- *)
Definition chunk_reads (cd : codec) (used : Z -> Z -> Z -> bytes -> nat) (fmt eb rl : Z) (c : bytes * Z) (data : bytes) : Prop :=
  0 < snd c < 2 ^ 31 /\ Z.of_nat (length data) = snd c * rl /\
  forall rest, cd_decomp cd fmt eb (snd c) (fst c ++ rest) = Some data /\ used fmt eb (snd c) (fst c ++ rest) = length (fst c).
Lemma read_all cd used fmt eb rl : forall cs datas, Forall2 (chunk_reads cd used fmt eb rl) cs datas ->
  forall rest, read_chunks cd used fmt eb (map snd cs) (total_points cs) (cdata cs ++ rest) = Ok (concat datas).
Proof.
  induction 1 as [|(x, n) d cs datas (A & B & D) H IH]; intros rest; [reflexivity|].
  cbn [fst snd] in *. assert (T : 0 <= total_points cs).
  { clear - H. induction H as [|c d cs ds (A & B & D) H IH]; [cbn; lia|]. change (total_points (c :: cs)) with (snd c + total_points cs). lia. }
  change (total_points ((x, n) :: cs)) with (n + total_points cs). cbn [map snd read_chunks]. change (cdata ((x, n) :: cs)) with (x ++ cdata cs). rewrite <- app_assoc.
  destruct (Z.leb_spec (n + total_points cs) 0); [lia|]. destruct (Z.leb_spec n 0); [lia|]. rewrite Z.min_l by lia.
  destruct (D (cdata cs ++ rest)) as (D1 & D2). rewrite D1, D2, skip_app by reflexivity.
  replace (n + total_points cs - n) with (total_points cs) by lia. rewrite IH. reflexivity.
Qed.
Lemma accepted_step cd z ops : forall w w' l op, lw_cfg w = z -> lrun cd ops w = (w', l) -> In (op, Ok tt) l -> exists w1 w2, lw_cfg w1 = z /\ lstep cd op w1 = (w2, Ok tt).
Proof.
  induction ops as [|o ops IH]; intros w w' l op Z H I; cbn [lrun] in H; [injection H as <- <-; destruct I|].
  destruct (lstep cd o w) as (w1, r) eqn:E. assert (Z1 : lw_cfg w1 = z).
  { rewrite <- Z. clear - E. destruct o; cbn [lstep] in E.
    - destruct (c_pts c); [now injection E as <-|]. destruct (_ || _); [now injection E as <-|]. destruct (points_pack _ _ _ _); [|now injection E as <-..]. unfold chunk_written in E. destruct (write_chunk _ _ _ _ _ _) as (b, []); injection E as <- _; reflexivity.
    - destruct (count =? 0); [now injection E as <-|]. unfold chunk_written in E. destruct (write_chunk _ _ _ _ _ _) as (b, []); injection E as <- _; reflexivity. }
  assert (R : l = [(o, UB)] \/ exists l2, lrun cd ops w1 = (w', l2) /\ l = (o, r) :: l2).
  { destruct r; [right|right|left]; [destruct (lrun cd ops w1) as (w2, l2); injection H as <- <-; eauto..|now injection H as _ <-]. }
  destruct R as [->|(l2 & R & ->)]; [destruct I as [I|[]]; discriminate|]. destruct I as [I|I]; [|eauto].
  injection I as -> ->. eauto.
Qed.
Lemma accepted_records cd z ops l w op data : laz_session cd z ops l w -> In (op, Ok tt) l -> laz_stores cd (z_hdr z) op data ->
  (data = [] /\ laz_chunk cd (z_hdr z) op = None) \/ exists n, 0 < n < 2 ^ 31 /\ Z.of_nat (length data) = n * h_reclen (z_hdr z) /\
    laz_chunk cd (z_hdr z) op = Some (cd_comp cd (h_fmt (z_hdr z)) (h_reclen (z_hdr z) - las_base (h_fmt (z_hdr z))) data, n).
Proof.
  intros (w0 & w1 & O & R & _ & G & _) I ST. destruct (laz_open_inv _ _ O G) as (CF & _).
  destruct (accepted_step _ _ _ _ _ _ _ CF R I) as (w2 & w3 & Z2 & E). destruct (laz_eb _ G) as (_ & _ & _ & RL).
  destruct op as [hp c|x n]; cbn [laz_stores laz_chunk lstep] in *.
  - rewrite Z2 in E. destruct (c_pts c) as [|p ps] eqn:EP.
    { left. unfold points_pack in ST. rewrite EP in ST. apply (f_equal (fun o => match o with Ok a => a | _ => [0] end)) in ST. cbn [mapM bind concat] in ST. auto. }
    right. destruct (_ || _); [discriminate|]. rewrite ST in E. unfold chunk_written, write_chunk in E. cbv zeta in E. destruct (_ <=? 0); [exfalso; clear - E; congruence|].
    change (let! eb := h_eb_size (z_hdr z) in compress_bytes cd (h_fmt (z_hdr z)) eb data) with (chunk_source cd (z_hdr z) data 0 false) in E. cbn match in E.
    destruct (chunk_source cd (z_hdr z) data 0 false) as [(x, n)| |] eqn:CS; [|exfalso; clear - E; congruence..].
    destruct (laz_packed _ _ _ _ _ G CS) as (P & L & N). exists n. rewrite ST.
    assert (data <> []).
    { unfold points_pack in ST. apply bind_ok in ST as (bs & B & ST). injection ST as <-. rewrite EP in B. cbn [mapM] in B. apply bind_ok in B as (b & B1 & B). apply bind_ok in B as (bs' & B2 & B). injection B as <-.
      apply bind_ok in B1 as (q & _ & PB). apply point_pack_ok_inv in PB as (i & j & k & _ & _ & _ & ->). unfold enc_i32. cbn [concat]. intros X. apply (f_equal (@length Z)) in X. rewrite !app_length, le_enc_length in X. cbn [length] in X. lia. }
    split; [|split; [exact L|]]; [|rewrite <- P; f_equal; f_equal; exact (f_equal fst P)].
    unfold INT32_MAX in N. split; [|lia]. destruct data; [congruence|]. cbn [length] in L. nia.
  - destruct ST as (-> & L & N). right. exists n. auto.
Qed.
Lemma accepted_chunks cd z ops l w : laz_session cd z ops l w -> forall l' datas, incl l' l -> Forall2 (laz_stores cd (z_hdr z)) (accepted l') datas ->
  exists datas', concat datas' = concat datas /\ Forall2 (fun c data => fst c = cd_comp cd (h_fmt (z_hdr z)) (h_reclen (z_hdr z) - las_base (h_fmt (z_hdr z))) data /\ 0 < snd c < 2 ^ 31 /\
    Z.of_nat (length data) = snd c * h_reclen (z_hdr z)) (laz_chunks cd (z_hdr z) l') datas'.
Proof.
  intros S. induction l' as [|(op, r) l' IH]; intros datas IN H.
  - inversion H; subst. exists []. split; [reflexivity|constructor].
  - assert (IN' : incl l' l) by (intros a A; apply IN; now right). destruct r as [[]| |]; [|exact (IH _ IN' H)..].
    change (accepted ((op, Ok tt) :: l')) with (op :: accepted l') in H. inversion H as [|? d ? ds H1 H2]; subst. destruct (IH _ IN' H2) as (ds' & E & F).
    change (laz_chunks cd (z_hdr z) ((op, Ok tt) :: l')) with (opt_list (laz_chunk cd (z_hdr z) op) ++ laz_chunks cd (z_hdr z) l').
    destruct (accepted_records _ _ _ _ _ _ _ S (IN _ (or_introl eq_refl)) H1) as [(-> & ->)|(n & N & L & ->)].
    + exists ds'. split; [exact E|exact F].
    + exists (d :: ds'). cbn [concat opt_list app]. rewrite E. split; [reflexivity|]. constructor; [|exact F]. cbn [fst snd]. auto.
Qed.
Lemma laz_read_gen cd z ops l w ds used : laz_session cd z ops l w -> laz_chunks_fit cd (z_hdr z) ops ->
  (forall l rest, Forall (fun c => 0 <= fst c < 2 ^ 64 /\ 0 <= snd c < 2 ^ 64) l -> cd_untable cd (Z.of_nat (length l)) (cd_table cd l ++ rest) = Some l) ->
  Forall2 (chunk_reads cd used (h_fmt (z_hdr z)) (h_reclen (z_hdr z) - las_base (h_fmt (z_hdr z))) (h_reclen (z_hdr z))) (laz_chunks cd (z_hdr z) l) ds ->
  h_reclen (z_hdr z) <= 255 -> forall hd, h_fmt hd = h_fmt (z_hdr z) -> h_reclen hd = h_reclen (z_hdr z) -> h_poff hd = laz_start z -> 
  h_pcount hd = to_u 64 (total_points (laz_chunks cd (z_hdr z) l)) -> forall wkt ebs, laz_point_data cd used (mkLR (laz_file w) (mkLaz hd wkt ebs)) = Ok (concat ds).
Proof.
  intros S FIT LS2 F R255 hd HF HR HP HC wkt ebs. destruct (laz_closed _ _ _ _ _ S) as (w0 & w1 & cs & h & O & R & C & X & G & L & B). rewrite <- (X FIT) in *.
  destruct (laz_eb _ G) as (EE & EB & E2 & RL). pose proof G as (_ & HF1 & _).
  assert (BD : 0 <= total_points cs <= (2 ^ 31 - 1) * Z.of_nat (length cs)).
  { clear - F. induction F as [|c d cs ds (B & D & A) H IH]; [cbn; lia|]. change (total_points (c :: cs)) with (snd c + total_points cs). cbn [length]. rewrite Nat2Z.inj_succ. change (2 ^ 31) with 2147483648 in *. lia. }
  pose proof (lc_count _ _ _ _ _ C) as LC. unfold UINT32_MAX in LC. assert (T : to_u 64 (total_points cs) = total_points cs) by (unfold to_u; apply Z.mod_small; change (2 ^ 31) with 2147483648 in *; change (2 ^ 64) with 18446744073709551616; nia).
  unfold laz_point_data. cbn [lr_cfg z_hdr lr_file]. unfold h_eb_size. rewrite HF, HR, HC, HP, T. unfold h_eb_size in EE. rewrite EE. cbn [bind]. rewrite las_base_ok by lia. cbn [bind].
  replace (las_base (h_fmt (z_hdr z)) + eb_total (z_ebs z)) with (h_reclen (z_hdr z)) by lia.
  destruct (Z.leb_spec (total_points cs) 0) as [T0|T0].
  { assert (cs = []) as ->. { clear - F T0. destruct F as [|c d cs ds (B & D & A) H]; [reflexivity|]. exfalso.
      assert (0 <= total_points cs) by (clear - H; induction H as [|c d cs ds (B & D & A) H IH]; [cbn; lia|]; change (total_points (c :: cs)) with (snd c + total_points cs); lia).
      change (total_points (c :: cs)) with (snd c + total_points cs) in T0. lia. }
    inversion F; subst. reflexivity. }
  destruct (Z.ltb_spec 255 (h_reclen (z_hdr z))); [lia|].
  pose proof (laz_head_length _ _ _ _ _ C G) as HL. pose proof (laz_split _ _ _ _ _ C) as SP. unfold data_section in SP. rewrite <- !app_assoc in SP. destruct (base_offset_ok _ G) as (_ & DR).
  assert (K1 : skipn (Z.to_nat (laz_start z)) (laz_file w) = enc_u64 (laz_start z + 8 + Z.of_nat (length (cdata cs))) ++ cdata cs ++ table_bytes cd cs ++ wkt_record (z_wkt z)).
  { rewrite SP. apply skip_app. lia. }
  assert (K2 : skipn (Z.to_nat (laz_start z + 8)) (laz_file w) = cdata cs ++ table_bytes cd cs ++ wkt_record (z_wkt z)).
  { replace (Z.to_nat (laz_start z + 8)) with (Z.to_nat (laz_start z) + 8)%nat by lia. rewrite <- skipn_add, K1. apply skip_app. apply le_enc_length. }
  assert (K3 : skipn (Z.to_nat (laz_start z + 8 + Z.of_nat (length (cdata cs)))) (laz_file w) = table_bytes cd cs ++ wkt_record (z_wkt z)).
  { replace (Z.to_nat (laz_start z + 8 + Z.of_nat (length (cdata cs)))) with (Z.to_nat (laz_start z + 8) + length (cdata cs))%nat by lia. rewrite <- skipn_add, K2. apply skip_app. reflexivity. }
  assert (LF : laz_start z + 8 + Z.of_nat (length (cdata cs)) < 2 ^ 64).
  { pose proof L as L'. rewrite SP, !app_length in L'. unfold enc_u64 in L'. rewrite le_enc_length in L'. lia. }
  unfold lazperf_chunks. rewrite HP, K1. unfold enc_u64. rewrite dec_u_app by (change (8 * Z.of_nat 8) with 64; lia). rewrite K3. unfold table_bytes, enc_u32. rewrite <- !app_assoc, dec_u_app by (change (8 * Z.of_nat 4) with 32; lia).
  cbn [Z.eqb negb]. rewrite dec_u_app by (change (8 * Z.of_nat 4) with 32; lia).
  assert (LCS : length (chunk_sizes cs) = length cs) by (unfold chunk_sizes; apply map_length). rewrite <- LCS, LS2. cbn [bind].
  - rewrite K2. assert (MS : map fst (chunk_sizes cs) = map snd cs).
    { clear - F. induction F as [|c d cs ds (B & D & A) H IH]; [reflexivity|]. cbn [chunk_sizes map fst] in *. f_equal; [|exact IH]. unfold to_u. apply Z.mod_small. change (2 ^ 31) with 2147483648 in *. change (2 ^ 64) with 18446744073709551616. lia. }
    rewrite MS. replace (eb_total (z_ebs z)) with (h_reclen (z_hdr z) - las_base (h_fmt (z_hdr z))) by lia. apply (read_all cd used _ _ (h_reclen (z_hdr z))). exact F.
  - clear - L SP. assert (BC : Forall (fun c => Z.of_nat (length (fst c)) < 2 ^ 64) cs).
    { apply Forall_forall. intros (c, n) I. apply in_split in I as (a & b & ->). rewrite SP, !app_length in L. unfold cdata in L. rewrite map_app, concat_app in L. cbn [map concat] in L. rewrite !app_length in L. cbn [fst] in *. lia. }
    unfold chunk_sizes. apply Forall_map. eapply Forall_impl; [|exact BC]. cbv beta. intros c A. cbn [fst snd]. split; [unfold to_u; apply Z.mod_pos_bound; lia|lia].
Qed.

Lemma laz_fit_of cd z ops l w datas : laz_session cd z ops l w -> laz_chunks_fit cd (z_hdr z) ops -> lossless cd -> Forall2 (laz_stores cd (z_hdr z)) (accepted l) datas ->
  h_reclen (z_hdr z) <= 255 -> forall used, exact cd used -> forall hd, h_fmt hd = h_fmt (z_hdr z) -> h_reclen hd = h_reclen (z_hdr z) -> h_poff hd = laz_start z -> 
  h_pcount hd = to_u 64 (total_points (laz_chunks cd (z_hdr z) l)) -> forall wkt ebs, laz_point_data cd used (mkLR (laz_file w) (mkLaz hd wkt ebs)) = Ok (concat datas).
Proof.
  intros S FIT LS ST R255 used EX hd HF HR HP HC wkt ebs. destruct (accepted_chunks _ _ _ _ _ S l datas (incl_refl _) ST) as (ds & <- & F).
  assert (G : laz_ready z) by (destruct S as (? & ? & _ & _ & _ & G & _); exact G). destruct (laz_eb _ G) as (EE & EB & E2 & RL). pose proof G as (_ & HF1 & _).
  eapply laz_read_gen; eauto; [exact (proj2 LS)|]. clear - F LS EX EB E2 HF1 RL. induction F as [|c d cs ds (A & B & D) F IH]; constructor; [|exact IH]. split; [exact B|]. split; [exact D|]. intros rest. rewrite A.
  split; [apply (proj1 LS)|apply EX]; auto; try lia; unfold rec_size; rewrite D; f_equal; lia.
Qed.

Lemma laz_opened' cd z ops l w : laz_session cd z ops l w -> laz_chunks_fit cd (z_hdr z) ops -> (length (z_ebs z) <= 341)%nat -> Forall wf_eb_text (z_ebs z) -> id_string 16 (h_guid (z_hdr z)) -> id_string 32 (h_sys (z_hdr z)) -> id_string 32 (h_gen (z_hdr z)) -> Z.of_nat (length (z_wkt z)) < 2 ^ 31 ->
  exists r, open_laz_reader (laz_file w) = Ok r /\ lr_file r = laz_file w /\ z_wkt (lr_cfg r) = z_wkt z /\ z_ebs (lr_cfg r) = (if 0 <? eb_total (z_ebs z) then z_ebs z else []) /\
    laz_settings (z_hdr z) (z_hdr (lr_cfg r)) /\ h_copc (z_hdr (lr_cfg r)) = true /\ describes (laz_file w) (z_hdr (lr_cfg r)) /\
    h_poff (z_hdr (lr_cfg r)) = laz_start z /\ h_pcount (z_hdr (lr_cfg r)) = to_u 64 (total_points (laz_chunks cd (z_hdr z) l)).
Proof.
  intros S FIT EB ET ID1 ID2 ID3 WK. destruct (laz_closed _ _ _ _ _ S) as (w0 & w1 & cs & h & O & R & C & X & G & L & B). rewrite <- (X FIT).
  pose proof (lo_open _ _ _ _ _ C G L EB ET WK ID1 ID2 ID3) as OP. eexists. split; [exact OP|]. cbn [lr_cfg lr_file z_hdr z_wkt z_ebs]. split; [reflexivity|]. split; [reflexivity|]. split; [reflexivity|].
  split; [repeat split|]. split; [reflexivity|]. destruct (laz_fields _ _ _ _ _ C G L) as (H1 & H2 & H3 & H4 & H5). split; [|split; reflexivity].
  unfold describes. rewrite H1, H2, H3, H4, H5. cbn [lo_hdr h_pcount h_poff h_vlrs h_evoff h_evcnt]. split; [reflexivity|]. split; [reflexivity|]. split; [|split; [reflexivity|destruct (z_wkt z); reflexivity]].
  unfold laz_recs. destruct (laz_eb _ G) as (_ & EBN & _). destruct (Z.eqb_spec (eb_total (z_ebs z)) 0), (Z.ltb_spec 0 (eb_total (z_ebs z))); try (exfalso; lia); reflexivity.
Qed.
Lemma laz_opened cd z ops l w : laz_session cd z ops l w -> laz_chunks_fit cd (z_hdr z) ops -> laz_storable z ->
  exists r, open_laz_reader (laz_file w) = Ok r /\ lr_file r = laz_file w /\ z_wkt (lr_cfg r) = z_wkt z /\ z_ebs (lr_cfg r) = (if 0 <? eb_total (z_ebs z) then z_ebs z else []) /\
    laz_settings (z_hdr z) (z_hdr (lr_cfg r)) /\ h_copc (z_hdr (lr_cfg r)) = true /\ describes (laz_file w) (z_hdr (lr_cfg r)) /\
    h_poff (z_hdr (lr_cfg r)) = laz_start z /\ h_pcount (z_hdr (lr_cfg r)) = to_u 64 (total_points (laz_chunks cd (z_hdr z) l)).
Proof. intros S FIT (EB & EZ & ET & ID1 & ID2 & ID3 & WK). now apply (laz_opened' cd z ops l w). Qed.
Lemma laz_ready_header z h : laz_ready z -> laz_settings (z_hdr z) h -> 6 <= h_fmt h <= 8 /\ las_base (h_fmt h) <= h_reclen h <= 65535.
Proof. intros G (_ & _ & _ & _ & _ & _ & _ & _ & _ & F & R & _). destruct (laz_eb _ G) as (_ & EB & E2 & RL). destruct G as (_ & FF & _). rewrite F, R. lia. Qed.
Lemma points_of_data cd used hp r data n : 6 <= h_fmt (z_hdr (lr_cfg r)) <= 8 -> las_base (h_fmt (z_hdr (lr_cfg r))) <= h_reclen (z_hdr (lr_cfg r)) <= 65535 ->
  laz_point_data cd used r = Ok data -> wf_bytes data -> Z.of_nat (length data) = n * h_reclen (z_hdr (lr_cfg r)) -> n <= INT32_MAX ->
  exists x ps, laz_points cd used hp r = Ok x /\ has_points (z_hdr (lr_cfg r)) x ps /\ decodes_to (z_hdr (lr_cfg r)) data ps.
Proof.
  intros F R D W L N. unfold laz_points. rewrite D. cbn [bind]. destruct (unpack_decodes _ hp data F R W n L N) as (ps & DC & E & FP).
  pose proof (ProofPoint.las_base_range (h_fmt (z_hdr (lr_cfg r)))) as LB.
  destruct (list_cases data) as [->|(b & t & ->)].
  - unfold empty_points. rewrite eb_size_ok by auto. cbn [bind]. assert (PS : ps = []).
    { destruct DC as (DL & _). cbn [length] in DL. destruct ps; [reflexivity|]. cbn [length] in DL. nia. }
    subst ps. exists (hp, mkPoints (h_fmt (z_hdr (lr_cfg r))) (h_reclen (z_hdr (lr_cfg r))) []), [].
    split; [|split; [split; [reflexivity|split; reflexivity]|exact DC]]. 
    unfold new_points. rewrite point_byte_size_ok by lia. replace ((_ <? 0) || _) with false by lia. cbn [bind].
    replace (to_u 16 (las_base (h_fmt (z_hdr (lr_cfg r))) + (h_reclen (z_hdr (lr_cfg r)) - las_base (h_fmt (z_hdr (lr_cfg r)))))) with (h_reclen (z_hdr (lr_cfg r))); [reflexivity|]. rewrite small16 by lia. lia.
  - rewrite E. exists (hp ++ ps, mkPoints (h_fmt (z_hdr (lr_cfg r))) (h_reclen (z_hdr (lr_cfg r))) (seq (length hp) (length ps))), ps.
    split; [reflexivity|]. split; [|exact DC]. split; [|split; reflexivity]. cbn [fst snd c_pts]. apply hget_fresh.
Qed.

Lemma accepted_points cd z ops l w hp c : laz_session cd z ops l w -> In (LWrite hp c, Ok tt) l ->
  c_pts c = [] \/ (c_fmt c = h_fmt (z_hdr z) /\ c_reclen c = h_reclen (z_hdr z) /\ exists data, points_pack hp c (h_scale (z_hdr z)) (h_offset (z_hdr z)) = Ok data).
Proof.
  intros (w0 & w1 & O & R & _ & G & _) I. destruct (laz_open_inv _ _ O G) as (CF & _).
  destruct (accepted_step _ _ _ _ _ _ _ CF R I) as (w2 & w3 & Z2 & E). cbn [lstep] in E. rewrite Z2 in E. destruct (c_pts c); [now left|right].
  destruct (_ || _) eqn:Q; [exfalso; clear - E; congruence|]. apply orb_false_iff in Q as (Q1 & Q2). apply negb_false_iff, Z.eqb_eq in Q1, Q2. split; [exact Q1|]. split; [exact Q2|].
  destruct (points_pack hp c _ _) as [d| |]; [eauto|exfalso; clear - E; congruence..].
Qed.
Lemma accepted_in op l : In op (accepted l) -> In (op, Ok tt) l.
Proof. unfold accepted. intros H. apply in_flat_map in H as ((o, r) & I & X). destruct r as [[]| |]; cbn in X; [|destruct X..]. destruct X as [->|[]]. exact I. Qed.
(* packing all the points of the accepted calls *)
Lemma given_records cd z ops l w : laz_session cd z ops l w -> forall acc pss, incl acc (accepted l) -> Forall2 laz_given acc pss ->
  exists bss, Forall2 (laz_stores cd (z_hdr z)) acc (map (@concat Z) bss) /\ Forall2 (fun p b => point_pack p (h_scale (z_hdr z)) (h_offset (z_hdr z)) = Ok b) (concat pss) (concat bss) /\
    Forall wf_point (concat pss) /\ Forall (fun p => p_fmt p = h_fmt (z_hdr z) /\ p_reclen p = h_reclen (z_hdr z)) (concat pss) /\ wf_bytes (concat (concat bss)).
Proof.
  intros S. induction acc as [|op acc IH]; intros pss IN H; inversion H as [|? ps ? pss' H1 H2]; subst.
  { exists []. split; [constructor|]. split; [constructor|]. split; [constructor|]. split; constructor. }
  destruct (IH pss' (fun a A => IN a (or_intror A)) H2) as (bss & F1 & F2 & F3 & F4 & F5).
  destruct op as [hp c|x n]; [|destruct H1]. destruct H1 as (M & W & U).
  assert (Q : exists bs, mapM (fun a => let! p := hget hp a in point_pack p (h_scale (z_hdr z)) (h_offset (z_hdr z))) (c_pts c) = Ok bs /\ Forall wf_point ps /\
     Forall (fun p => p_fmt p = h_fmt (z_hdr z) /\ p_reclen p = h_reclen (z_hdr z)) ps).
  { destruct (uniform_points hp c W U) as (ps' & E & WP & UP). rewrite M in E. injection E as <-.
    destruct (accepted_points _ _ _ _ _ _ _ S (accepted_in _ _ (IN _ (or_introl eq_refl)))) as [E|(E1 & E2 & data & P)].
    - rewrite E in *. exists []. cbn [mapM] in M. injection M as <-. repeat split; constructor.
    - unfold points_pack in P. apply bind_ok in P as (bs & B & P). exists bs. rewrite <- E1, <- E2. auto. }
  destruct Q as (bs & B & WP & UP). destruct (pack_all _ _ _ _ _ _ WP M B) as (X & Y). exists (bs :: bss). cbn [map concat].
  split; [constructor; [|exact F1]; cbn [laz_stores]; unfold points_pack; rewrite B; reflexivity|].
  split; [now apply Forall2_app|]. split; [apply Forall_app; auto|]. split; [apply Forall_app; auto|]. rewrite concat_app. apply wf_bytes_app. auto.
Qed.
Lemma concat_concats (bss : list (list bytes)) : concat (map (@concat Z) bss) = concat (concat bss).
Proof. induction bss as [|b bss IH]; [reflexivity|]. cbn [map concat]. now rewrite IH, concat_app. Qed.

Lemma long_records cd used z h f wkt ebs : laz_ready z -> h_fmt h = h_fmt (z_hdr z) -> h_reclen h = h_reclen (z_hdr z) -> 255 < h_reclen (z_hdr z) -> 0 < h_pcount h ->
  laz_point_data cd used (mkLR f (mkLaz h wkt ebs)) = UB.
Proof.
  intros G F R L P. destruct (laz_eb _ G) as (EE & EB & E2 & RL). pose proof G as (_ & FF & _). unfold laz_point_data. cbn [lr_cfg z_hdr]. unfold h_eb_size in *. rewrite F, R, EE. cbn [bind].
  rewrite las_base_ok by lia. cbn [bind]. replace (las_base (h_fmt (z_hdr z)) + eb_total (z_ebs z)) with (h_reclen (z_hdr z)) by lia.
  destruct (Z.leb_spec (h_pcount h) 0); [lia|]. destruct (Z.ltb_spec 255 (h_reclen (z_hdr z))); [reflexivity|lia].
Qed.
