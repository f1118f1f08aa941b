(* ProofFile.v - reading a file by position *)
From Coq Require Import Permutation.
From Verif Require Import Base BaseFacts ModelFloat ModelKey ModelGeom ModelEntry ModelPoint ModelPoints ModelHeader ModelVlr ModelExtents ModelConfig
  ModelStream ModelWriter SpecKey SpecPoint SpecConfig SpecHeader SpecWriter SpecHier SpecFile ProofKey ProofPoint ProofPoint2 ProofHeader ProofExtents ProofConfig
  ProofStream ProofWriter ProofWriter2 ProofWriter3 ProofWriter4 ProofTree ProofPages ProofClose ProofClose2 ProofSession.

Lemma bytes_at_mid off len a x b : off = Z.of_nat (length a) -> len = Z.of_nat (length x) -> bytes_at off len (a ++ x ++ b) = x.
Proof. intros -> ->. unfold bytes_at. rewrite !Nat2Z.id. rewrite skip_app by reflexivity. now apply first_app. Qed.
Lemma bytes_at_in off len a x b : Z.of_nat (length a) <= off -> 0 <= len -> off + len <= Z.of_nat (length a) + Z.of_nat (length x) ->
  bytes_at off len (a ++ x ++ b) = bytes_at (off - Z.of_nat (length a)) len x.
Proof.
  intros A L B. unfold bytes_at. replace (Z.to_nat off) with (length a + Z.to_nat (off - Z.of_nat (length a)))%nat by lia.
  rewrite <- skipn_add, skip_app by reflexivity. set (o := Z.to_nat (off - _)). rewrite skipn_app.
  assert (o <= length x)%nat by lia. replace (o - length x)%nat with 0%nat by lia. rewrite skipn_O, firstn_app, skipn_length.
  replace (Z.to_nat len - (length x - o))%nat with 0%nat by lia. now rewrite app_nil_r.
Qed.
Lemma bytes_at_pre off len x b : 0 <= off -> 0 <= len -> off + len <= Z.of_nat (length x) -> bytes_at off len (x ++ b) = bytes_at off len x.
Proof. intros A L B. pose proof (bytes_at_in off len [] x b) as H. cbn [app length] in H. rewrite H by lia. f_equal. lia. Qed.
Lemma bytes_at_length off len f : 0 <= off -> 0 <= len -> off + len <= Z.of_nat (length f) -> Z.of_nat (length (bytes_at off len f)) = len.
Proof. intros A B C. unfold bytes_at. rewrite firstn_length, skipn_length. lia. Qed.
Lemma bytes_at_len_le off len f : 0 < len -> Z.of_nat (length (bytes_at off len f)) = len -> 0 <= off -> off + len <= Z.of_nat (length f).
Proof. intros A B C. unfold bytes_at in B. rewrite firstn_length, skipn_length in B. lia. Qed.
Lemma num_at_mid off n a v b : off = Z.of_nat (length a) -> 0 <= v < 2 ^ (8 * Z.of_nat n) -> num_at off (Z.of_nat n) (a ++ le_enc n v ++ b) = v.
Proof. intros O V. unfold num_at. rewrite bytes_at_mid by (now rewrite ?le_enc_length). rewrite le_dec_enc. now apply Z.mod_small. Qed.

(* header fields *)
Lemma header_fields l r : wf_h14 l -> let f := enc_header14 l ++ r in
  las_point_offset f = l_poff l /\ las_vlr_count f = l_vlrs l /\ las_legacy_count f = l_pcount l /\ las_evlr_offset f = l_evoff l /\
  las_evlr_count f = l_evcnt l /\ las_point_count f = l_pc14 l.
Proof.
  intros (_ & _ & G & _ & _ & S & N & _ & _ & _ & PO & VC & _ & _ & PC & P5 & _ & _ & EO & EC & P14c & P14 & _). cbv zeta.
  set (A := LASF ++ enc_u16 (l_src l) ++ enc_u16 (l_enc l) ++ l_guid l ++ enc_u8 (l_major l) ++ enc_u8 (l_minor l) ++
    l_sys l ++ l_gen l ++ enc_u16 (l_day l) ++ enc_u16 (l_year l) ++ enc_u16 (l_hsize l)).
  set (B := enc_u8 (l_fmt l) ++ enc_u16 (l_reclen l)).
  set (C := flat_map enc_u32 (l_pbr5 l) ++ enc_vec (l_scale l) ++ enc_vec (l_offset l) ++ enc_minmax (l_max l) (l_min l) ++ enc_u64 (l_wave l)).
  set (D := flat_map enc_u64 (l_pbr14 l) ++ r).
  assert (E : enc_header14 l ++ r = A ++ enc_u32 (l_poff l) ++ enc_u32 (l_vlrs l) ++ B ++ enc_u32 (l_pcount l) ++ C ++ enc_u64 (l_evoff l) ++ enc_u32 (l_evcnt l) ++ enc_u64 (l_pc14 l) ++ D).
  { unfold enc_header14, A, B, C, D. rewrite <- !app_assoc. reflexivity. }
  assert (LA : length A = 96%nat). { unfold A, enc_u8, enc_u16, enc_u32. rewrite !app_length, !le_enc_length, G, S, N. reflexivity. }
  assert (LB : length B = 3%nat). { unfold B, enc_u8, enc_u16. rewrite !app_length, !le_enc_length. reflexivity. }
  assert (LC : length C = 124%nat).
  { unfold C, enc_u64. rewrite !app_length, !enc_vec_length, enc_minmax_length, !le_enc_length. rewrite (flat_map_length_const enc_u32 4), P5 by (intros; apply le_enc_length). reflexivity. }
  clearbody A B C D. rewrite E. unfold las_point_offset, las_vlr_count, las_legacy_count, las_evlr_offset, las_evlr_count, las_point_count. unfold enc_u32, enc_u64 in *.
  repeat split.
  - apply (num_at_mid 96 4); [lia|exact PO].
  - rewrite !app_assoc, <- (app_assoc _ (le_enc 4 (l_vlrs l))). rewrite <- !app_assoc. rewrite (app_assoc A). apply (num_at_mid 100 4); [rewrite app_length, le_enc_length; lia|exact VC].
  - rewrite (app_assoc A), (app_assoc (A ++ _)), (app_assoc ((A ++ _) ++ _)). apply (num_at_mid 107 4); [rewrite !app_length, !le_enc_length; lia|exact PC].
  - rewrite (app_assoc A), (app_assoc (A ++ _)), (app_assoc ((A ++ _) ++ _)), (app_assoc (((A ++ _) ++ _) ++ _)), (app_assoc ((((A ++ _) ++ _) ++ _) ++ _)).
    apply (num_at_mid 235 8); [rewrite !app_length, !le_enc_length; lia|exact EO].
  - rewrite (app_assoc A), (app_assoc (A ++ _)), (app_assoc ((A ++ _) ++ _)), (app_assoc (((A ++ _) ++ _) ++ _)), (app_assoc ((((A ++ _) ++ _) ++ _) ++ _)), (app_assoc (((((A ++ _) ++ _) ++ _) ++ _) ++ _)).
    apply (num_at_mid 243 4); [rewrite !app_length, !le_enc_length; lia|exact EC].
  - rewrite (app_assoc A), (app_assoc (A ++ _)), (app_assoc ((A ++ _) ++ _)), (app_assoc (((A ++ _) ++ _) ++ _)), (app_assoc ((((A ++ _) ++ _) ++ _) ++ _)), (app_assoc (((((A ++ _) ++ _) ++ _) ++ _) ++ _)),
      (app_assoc ((((((A ++ _) ++ _) ++ _) ++ _) ++ _) ++ _)).
    apply (num_at_mid 247 8); [rewrite !app_length, !le_enc_length; lia|exact P14c].
Qed.

(* ---- records ---- *)
Definition rec_bytes (e : bool) (x : vlr_header * bytes) : bytes := (if e then enc_evlr_header (fst x) else enc_vlr_header (fst x)) ++ snd x.
Definition rec_head (e : bool) : Z := if e then 60 else 54.
Definition rec_lenw (e : bool) : Z := if e then 8 else 2.
Definition rec_ok (e : bool) (x : vlr_header * bytes) : Prop := v_len (fst x) = Z.of_nat (length (snd x)) /\ Z.of_nat (length (snd x)) < (if e then 2 ^ 64 else 2 ^ 16).
Definition recs_bytes (e : bool) (rs : list (vlr_header * bytes)) : bytes := concat (map (rec_bytes e) rs).
Lemma rec_bytes_length e x : Z.of_nat (length (rec_bytes e x)) = rec_head e + Z.of_nat (length (snd x)).
Proof. unfold rec_bytes, rec_head. rewrite app_length. destruct e; rewrite ?evlr_header_length, ?vlr_header_length; lia. Qed.
Lemma rec_len_at e x a b off : off = Z.of_nat (length a) -> rec_ok e x -> num_at (off + 20) (rec_lenw e) (a ++ rec_bytes e x ++ b) = Z.of_nat (length (snd x)).
Proof.
  intros -> (L & R). unfold rec_bytes, rec_lenw. destruct e.
  - unfold enc_evlr_header. set (p := enc_u16 (v_res (fst x)) ++ put_str 16 (v_user (fst x)) ++ enc_u16 (v_rec (fst x))).
    assert (LP : length p = 20%nat) by (unfold p, enc_u16; rewrite !app_length, !le_enc_length, put_str_length; reflexivity).
    replace (a ++ _ ++ b) with ((a ++ p) ++ le_enc 8 (v_len (fst x)) ++ (put_str 32 (v_desc (fst x)) ++ snd x ++ b)) by (unfold p, enc_u64; rewrite <- !app_assoc; reflexivity).
    rewrite L. change 8 with (Z.of_nat 8). apply num_at_mid; [rewrite app_length; lia|lia].
  - unfold enc_vlr_header. set (p := enc_u16 (v_res (fst x)) ++ put_str 16 (v_user (fst x)) ++ enc_u16 (v_rec (fst x))).
    assert (LP : length p = 20%nat) by (unfold p, enc_u16; rewrite !app_length, !le_enc_length, put_str_length; reflexivity).
    replace (a ++ _ ++ b) with ((a ++ p) ++ le_enc 2 (v_len (fst x)) ++ (put_str 32 (v_desc (fst x)) ++ snd x ++ b)) by (unfold p, enc_u16; rewrite <- !app_assoc; reflexivity).
    rewrite L. change 2 with (Z.of_nat 2). apply num_at_mid; [rewrite app_length; lia|lia].
Qed.
Lemma follow_recs e rs : forall a b off, Forall (rec_ok e) rs -> off = Z.of_nat (length a) ->
  follow (rec_head e) (rec_lenw e) (length rs) off (a ++ recs_bytes e rs ++ b) = off + Z.of_nat (length (recs_bytes e rs)).
Proof.
  induction rs as [|x rs IH]; intros a b off OK ->; [cbn; lia|]. inversion OK as [|? ? O1 O2]; subst. cbn [length follow].
  unfold recs_bytes. cbn [map concat]. fold (recs_bytes e rs). rewrite <- app_assoc. rewrite (rec_len_at e x a _ _ eq_refl O1).
  rewrite (app_assoc a), IH; [|exact O2|rewrite app_length; pose proof (rec_bytes_length e x); lia].
  rewrite app_length. pose proof (rec_bytes_length e x). lia.
Qed.

(* ---- the closed COPC file ---- *)
Definition vlr_recs (c : config) : list (vlr_header * bytes) :=
  [(info_vlr_header, enc_info (c_info c) (ex_min (gps_extent c)) (ex_max (gps_extent c)));
   (extents_vlr_header (extents_to_vlr (c_exts c)), enc_pairs (extents_to_vlr (c_exts c)))] ++
  (if xs_ext (c_exts c) then [(extended_vlr_header (extents_to_extended (c_exts c)), enc_pairs (extents_to_extended (c_exts c)))] else []) ++
  (if 0 <? eb_total (c_ebs c) then [(eb_vlr_header (c_ebs c), enc_eb_vlr (c_ebs c))] else []) ++
  [(laz_vlr_header (h_fmt (c_hdr c)) (eb_total (c_ebs c)), enc_laz_vlr (h_fmt (c_hdr c)) (eb_total (c_ebs c)))].
Lemma vlr_part_recs c : vlr_part c = recs_bytes false (vlr_recs c).
Proof.
  unfold vlr_part, recs_bytes, vlr_recs, ext_part, eb_part, rec_bytes.
  destruct (xs_ext (c_exts c)), (0 <? eb_total (c_ebs c)); cbn [map concat app fst snd]; rewrite ?app_nil_r, <- ?app_assoc; reflexivity.
Qed.
Lemma vlr_recs_ok c : cfg_ok c -> (length (c_ebs c) <= 341)%nat -> Forall (rec_ok false) (vlr_recs c).
Proof.
  intros G K. pose proof G as (_ & F & XF & (_ & _ & SH) & _ & _ & _ & _ & WE). destruct (good_eb_size _ G) as (_ & B & _ & E2 & _).
  pose proof (las_dims_range (xs_fmt (c_exts c))) as LD.
  assert (P1 : forall p, length p = length (xs_items (c_exts c)) -> to_u 16 (pairs_size p) = Z.of_nat (length (enc_pairs p)) /\ Z.of_nat (length (enc_pairs p)) < 2 ^ 16).
  { intros p Lp. rewrite enc_pairs_length. unfold pairs_size, to_u. rewrite Lp, Z.mod_small by lia. lia. }
  unfold vlr_recs. rewrite !Forall_app. repeat split.
  - constructor; [|constructor; [|constructor]].
    + unfold rec_ok. cbn [fst snd v_len info_vlr_header]. rewrite enc_info_length. unfold INFO_SIZE. split; reflexivity.
    + apply P1. unfold extents_to_vlr. apply map_length.
  - destruct (xs_ext _); [|constructor]. constructor; [|constructor]. apply P1. unfold extents_to_extended. apply map_length.
  - destruct (0 <? _); [|constructor]. constructor; [|constructor]. unfold rec_ok. cbn [fst snd v_len eb_vlr_header].
    rewrite enc_ebs_length by exact WE. unfold eb_vlr_size, to_u. cbn match. rewrite Z.mod_small; lia.
  - constructor; [|constructor]. unfold rec_ok. cbn [fst snd v_len laz_vlr_header]. rewrite enc_laz_length by lia.
    unfold laz_vlr_size. rewrite laz_items_length by lia. unfold to_u.
    destruct (_ =? 6), (eb_total _ =? 0); split; reflexivity.
Qed.
Lemma vlr_recs_count c : cfg_ok c -> Z.of_nat (length (vlr_recs c)) = 3 + (if eb_total (c_ebs c) =? 0 then 0 else 1) + (if xs_ext (c_exts c) then 1 else 0).
Proof.
  intros G. destruct (good_eb_size _ G) as (_ & B & _ & E2 & _). unfold vlr_recs.
  destruct (xs_ext _), (Z.ltb_spec 0 (eb_total (c_ebs c))), (Z.eqb_spec (eb_total (c_ebs c)) 0); cbn [length app]; lia.
Qed.
Definition page_rec (od : orders) (i : page_info) : vlr_header * bytes := (mkVlrH true 0 s_copc 1000 (pi_size i) (od_desc od (pi_key i)), flat_map entry_pack (pi_ents i)).
Definition evlr_recs (od : orders) (ws : list page_info) (wkt : bytes) : list (vlr_header * bytes) :=
  map (page_rec od) ws ++ match wkt with [] => [] | _ => [(wkt_evlr_header wkt, wkt)] end.
Lemma evlr_part_recs od ws wkt : concat (map (blob od) ws) ++ wkt_record wkt = recs_bytes true (evlr_recs od ws wkt).
Proof.
  unfold recs_bytes, evlr_recs. rewrite map_app, concat_app, map_map. f_equal.
  unfold wkt_record. destruct wkt; [reflexivity|]. cbn [map concat]. now rewrite app_nil_r.
Qed.

Section Closed.
Variables (cd : codec) (od : orders) (w : writer) (cs : list (bytes * Z)) (PG : kmap wpage) (ws : list page_info) (l : header14) (w' : writer).
Hypotheses (RO : reorders od) (C : closed cd od w cs PG ws l w').
Let c := w_cfg w.
Let ds := data_start c.
Definition head_area := enc_header14 l ++ vlr_part (w_cfg w') ++ zeros (Z.to_nat (slack c)).
Lemma head_length : Z.of_nat (length head_area) = ds.
Proof.
  unfold head_area. rewrite !app_length, (cl_hlen _ _ _ _ _ _ _ _ C), zeros_length. pose proof (vlr_part_length _ (cl_ok _ _ _ _ _ _ _ _ C)) as H.
  rewrite (cl_cfg _ _ _ _ _ _ _ _ C) in *. rewrite slack_with, start_with in H. assert (0 <= slack c) by (unfold slack; destruct (_ && _); lia).
  subst ds c. lia.
Qed.
Lemma file_split : file w' = head_area ++ data_section cd ds cs ++ recs_bytes true (evlr_recs od ws (c_wkt c)).
Proof. rewrite (cl_file _ _ _ _ _ _ _ _ C). rewrite evlr_part_recs. reflexivity. Qed.

Lemma chunk_bytes x n : placed (ds + 8) cs x n -> bytes_at (e_offset (n_entry n)) (e_size (n_entry n)) (file w') = x.
Proof.
  intros (pre & post & EC & O & S & _). rewrite file_split. pose proof head_length as HL. rewrite EC. unfold data_section. rewrite cdata_app.
  replace (cdata ((x, e_count (n_entry n)) :: post)) with (x ++ cdata post) by reflexivity.
  set (p8 := enc_u64 _). assert (L8 : length p8 = 8%nat) by apply le_enc_length. clearbody p8.
  replace (head_area ++ _ ++ recs_bytes true (evlr_recs od ws (c_wkt c)))
    with ((head_area ++ p8 ++ cdata pre) ++ x ++ (cdata post ++ table_bytes cd (pre ++ (x, e_count (n_entry n)) :: post) ++ recs_bytes true (evlr_recs od ws (c_wkt c))))
    by (rewrite <- !app_assoc; reflexivity).
  apply bytes_at_mid; [|exact S]. rewrite !app_length, L8. lia.
Qed.
(* pages in the file *)
Lemma pages_entries D : forall ws, pages_at od PG D ws -> forall i, In i ws -> pi_size i = 32 * Z.of_nat (length (pi_ents i)) /\
  exists a b, concat (map (blob od) ws) = a ++ flat_map entry_pack (pi_ents i) ++ b /\ pi_off i = Z.of_nat (length D) + Z.of_nat (length a).
Proof.
  destruct RO as (RN & RS). induction 1 as [|ws0 k P H IH E1 E2 E3 size FIT]; intros i I; [destruct I|]. rewrite map_app, concat_app. apply in_app_iff in I as [I|[<-|[]]].
  - destruct (IH i I) as (S & a & b & E & O). split; [exact S|]. exists a, (b ++ concat (map (blob od) [mkPI k (Z.of_nat (length (D ++ concat (map (blob od) ws0))) + 60) size (page_entries od k P ws0)])).
    rewrite E, <- !app_assoc. now split.
  - split.
    + cbn [pi_size pi_ents]. unfold size, page_entries. rewrite app_length, !map_length.
      rewrite (Permutation_length (RN k _)), (Permutation_length (RS k _)), map_length. lia.
    + exists (concat (map (blob od) ws0) ++ page_header od k size), []. cbn [map concat pi_ents pi_off]. unfold blob at 2. cbn [pi_key pi_size pi_ents].
      rewrite !app_nil_r, <- app_assoc. split; [reflexivity|]. rewrite !app_length. unfold page_header. rewrite evlr_header_length. lia.
Qed.
Lemma page_bytes i : In i ws -> pi_size i = 32 * Z.of_nat (length (pi_ents i)) /\ bytes_at (pi_off i) (pi_size i) (file w') = flat_map entry_pack (pi_ents i) /\
  0 <= pi_off i /\ pi_off i + pi_size i <= Z.of_nat (length (file w')) /\ 0 <= pi_size i <= INT32_MAX.
Proof.
  intros I. destruct (pages_entries _ _ (cl_at _ _ _ _ _ _ _ _ C) i I) as (S & a & b & E & O). 
  destruct (pages_at_range _ _ _ _ (cl_at _ _ _ _ _ _ _ _ C) i I) as (R1 & R2 & _).
  assert (EF : file w' = (head_area ++ data_section cd ds cs ++ a) ++ flat_map entry_pack (pi_ents i) ++ (b ++ wkt_record (c_wkt c))).
  { rewrite (cl_file _ _ _ _ _ _ _ _ C), E. fold c ds. unfold head_area. rewrite <- !app_assoc. reflexivity. }
  assert (EO : pi_off i = Z.of_nat (length (head_area ++ data_section cd ds cs ++ a))).
  { rewrite O. rewrite !app_length, zeros_length. fold c ds. pose proof head_length. lia. }
  assert (ES : pi_size i = Z.of_nat (length (flat_map entry_pack (pi_ents i)))) by (rewrite pack_all_length; lia).
  split; [exact S|]. split; [|split; [exact R2|split; [|exact R1]]].
  - rewrite EF. now apply bytes_at_mid.
  - rewrite EF, app_length, (app_length (flat_map _ _)). lia.
Qed.
Hypothesis LEN : Z.of_nat (length (file w')) < 2 ^ 64.
Lemma ev_start_pos : ev_start cd c cs = Z.of_nat (length (head_area ++ data_section cd ds cs)).
Proof. unfold ev_start. rewrite app_length. pose proof head_length. fold ds. lia. Qed.
Lemma ds_range : 375 < ds < 2 ^ 32.
Proof.
  destruct (copc_offset_ok _ (cl_ok _ _ _ _ _ _ _ _ C)) as (_ & R). rewrite (cl_cfg _ _ _ _ _ _ _ _ C), start_with in R. exact R.
Qed.
Lemma wf_l : wf_h14 l.
Proof.
  assert (W : wf_hdr (c_hdr c)).
  { pose proof (cl_ok _ _ _ _ _ _ _ _ C) as G. rewrite (cl_cfg _ _ _ _ _ _ _ _ C) in G. destruct (cfg_with_parts (w_cfg w) ws) as (P1 & _).
    destruct G as (_ & _ & _ & _ & _ & _ & G & _). now rewrite P1 in G. }
  apply (to_lazperf_wf _ _ _ _ _ _ _ _ W) with (2 := cl_hdr _ _ _ _ _ _ _ _ C). pose proof ds_range. pose proof ev_start_pos as EV. fold c ds.
  rewrite file_split, app_assoc, app_length in LEN. unfold fits, ev_count, to_u.
  split; [lia|]. split; [apply Z.mod_pos_bound; lia|]. split; [lia|]. destruct (c_wkt c); apply Z.mod_pos_bound; lia.
Qed.
Lemma head_fields : las_point_offset (file w') = ds /\ las_vlr_count (file w') = Z.of_nat (length (vlr_recs (w_cfg w'))) /\ las_evlr_offset (file w') = ev_start cd c cs /\ las_evlr_count (file w') = ev_count c (length (w_pages w)) /\ las_point_count (file w') = to_u 64 (total_points cs).
Proof.
  pose proof (header_fields l ((vlr_part (w_cfg w') ++ zeros (Z.to_nat (slack c))) ++ data_section cd ds cs ++ recs_bytes true (evlr_recs od ws (c_wkt c))) wf_l) as F. cbv zeta in F.
  assert (E : file w' = enc_header14 l ++ (vlr_part (w_cfg w') ++ zeros (Z.to_nat (slack c))) ++ data_section cd ds cs ++ recs_bytes true (evlr_recs od ws (c_wkt c))).
  { rewrite file_split. unfold head_area. now rewrite <- !app_assoc. }
  rewrite <- E in F. destruct F as (F1 & F2 & _ & F3 & F4 & F5). rewrite F1, F2, F3, F4, F5.
  rewrite vlr_recs_count by apply C. destruct (cfg_with_parts (w_cfg w) ws) as (P1 & P2 & P3 & P4). rewrite (cl_cfg _ _ _ _ _ _ _ _ C), P3, P4.
  pose proof (cl_hdr _ _ _ _ _ _ _ _ C) as H. fold c ds in H. unfold to_lazperf in H.
  assert (CP : h_copc (c_hdr c) = true).
  { pose proof (cl_ok _ _ _ _ _ _ _ _ C) as G. rewrite (cl_cfg _ _ _ _ _ _ _ _ C) in G. destruct G as (G & _). now rewrite P1 in G. }
  rewrite CP in H. apply bind_ok in H as (v & EV & H). pose proof ds_range as DR. injection H as H. rewrite <- H. cbn [l_poff l_vlrs l_evoff l_evcnt l_pc14].
  split; [unfold to_u; apply Z.mod_small; fold ds; lia|]. split; [|auto]. fold c. destruct (xs_ext (c_exts c)); injection EV as <-; destruct (eb_total (c_ebs c) =? 0); reflexivity.
Qed.
Lemma vlr_walk : (length (c_ebs c) <= 341)%nat ->
  follow 54 2 (length (vlr_recs (w_cfg w'))) 375 (file w') = ds - slack c.
Proof.
  intros K. rewrite file_split. unfold head_area. rewrite vlr_part_recs, <- !app_assoc.
  pose proof (follow_recs false (vlr_recs (w_cfg w')) (enc_header14 l) (zeros (Z.to_nat (slack c)) ++ data_section cd ds cs ++ recs_bytes true (evlr_recs od ws (c_wkt c))) 375) as F.
  cbn [rec_head rec_lenw] in F. rewrite F; [|apply vlr_recs_ok; [apply C|]|].
  - rewrite <- vlr_part_recs. pose proof (vlr_part_length _ (cl_ok _ _ _ _ _ _ _ _ C)) as H.
    assert (A1 : slack (w_cfg w') = slack c) by (rewrite (cl_cfg _ _ _ _ _ _ _ _ C); apply slack_with).
    assert (A2 : data_start (w_cfg w') = ds) by (rewrite (cl_cfg _ _ _ _ _ _ _ _ C); apply start_with). rewrite A1, A2 in H. clear - H. lia.
  - destruct (cfg_with_parts (w_cfg w) ws) as (_ & _ & P3 & _). rewrite (cl_cfg _ _ _ _ _ _ _ _ C), P3. exact K.
  - now rewrite (cl_hlen _ _ _ _ _ _ _ _ C).
Qed.
Lemma evlr_ok : Forall (rec_ok true) (evlr_recs od ws (c_wkt c)).
Proof.
  unfold evlr_recs. apply Forall_app. split.
  - apply Forall_forall. intros x X. apply in_map_iff in X as (i & <- & I). destruct (page_bytes i I) as (S & _ & _ & _ & R). unfold rec_ok, page_rec. cbn [fst snd v_len].
    rewrite pack_all_length. unfold INT32_MAX in R. lia.
  - destruct (c_wkt c) as [|b r] eqn:EW; [constructor|]. constructor; [|constructor]. unfold rec_ok. cbn [fst snd v_len wkt_evlr_header]. split; [reflexivity|].
    eapply Z.le_lt_trans; [|exact LEN]. rewrite file_split, EW. unfold recs_bytes, evlr_recs, rec_bytes.
    rewrite map_app, concat_app, !app_length. cbn [map concat fst snd]. rewrite !app_length. unfold bytes, byte in *. lia.
Qed.
Lemma evlr_walk : follow 60 8 (length (evlr_recs od ws (c_wkt c))) (ev_start cd c cs) (file w') = Z.of_nat (length (file w')).
Proof.
  pose proof evlr_ok as OK. pose proof ev_start_pos as EV. rewrite file_split, app_assoc.
  pose proof (follow_recs true (evlr_recs od ws (c_wkt c)) (head_area ++ data_section cd ds cs) [] (ev_start cd c cs) OK EV) as F. cbn [rec_head rec_lenw] in F.
  rewrite app_nil_r in F. rewrite F, EV, (app_length (_ ++ _)). lia.
Qed.
Lemma evlr_total : NoDup (map fst (w_pages w)) -> length (evlr_recs od ws (c_wkt c)) = (length (w_pages w) + match c_wkt c with [] => 0 | _ => 1 end)%nat /\ length ws = length (w_pages w).
Proof.
  intros ND. assert (E : length ws = length (w_pages w)).
  { rewrite <- (map_length pi_key ws), (Permutation_length (cl_perm _ _ _ _ _ _ _ _ C)). rewrite <- (map_length fst (w_pages w)).
    apply Permutation_length, NoDup_Permutation; [apply (tr_nd _ (cl_tree _ _ _ _ _ _ _ _ C))|exact ND|apply (cl_keys _ _ _ _ _ _ _ _ C)]. }
  split; [|exact E]. unfold evlr_recs. rewrite app_length, map_length, E. now destruct (c_wkt c).
Qed.
(* the data section *)
Lemma table_at : laz_table_offset (file w') = ds + 8 + Z.of_nat (length (cdata cs)) /\ bytes_at (ds + 8) (Z.of_nat (length (cdata cs))) (file w') = cdata cs /\ bytes_at (ds + 8 + Z.of_nat (length (cdata cs))) (Z.of_nat (length (table_bytes cd cs))) (file w') = table_bytes cd cs.
Proof.
  destruct head_fields as (F1 & _). unfold laz_table_offset. rewrite F1. pose proof head_length as HL. pose proof ds_range as DR.
  assert (TL : ds + 8 + Z.of_nat (length (cdata cs)) < 2 ^ 64).
  { eapply Z.le_lt_trans; [|exact LEN]. rewrite file_split, !app_length. pose proof (data_section_length cd ds cs). lia. }
  rewrite file_split. unfold data_section. set (T := ds + 8 + Z.of_nat (length (cdata cs))) in *. rewrite <- !app_assoc.
  assert (L8 : length (enc_u64 T) = 8%nat) by apply le_enc_length. split; [|split].
  - apply (num_at_mid ds 8); [exact (eq_sym HL)|]. change (8 * Z.of_nat 8) with 64. unfold T in *. lia.
  - rewrite (app_assoc head_area). apply bytes_at_mid; [rewrite app_length, L8; lia|reflexivity].
  - rewrite (app_assoc head_area), (app_assoc (_ ++ _)). apply bytes_at_mid; [rewrite !app_length, L8; unfold T; lia|reflexivity].
Qed.
End Closed.
