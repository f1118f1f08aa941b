(* ProofOpen2.v - opening written files *)
From Coq Require Import Permutation.
From Verif Require Import Base BaseFacts ModelFloat ModelKey ModelGeom ModelEntry ModelPoint ModelPoints ModelHeader ModelVlr ModelExtents ModelConfig
  ModelStream ModelWriter ModelReader SpecKey SpecPoint SpecConfig SpecHeader SpecWriter SpecHier SpecFile ProofFloat ProofKey ProofPoint ProofPoint2 ProofHeader ProofExtents ProofConfig
  ProofStream ProofWriter ProofWriter2 ProofWriter3 ProofWriter4 ProofTree ProofPages ProofClose ProofClose2 ProofSession ProofFile.
Open Scope Z_scope.

(* ---- texts ---- *)
Lemma trim_zeros n : trim_nul (zeros n) = [].
Proof. induction n as [|n IH]; [reflexivity|]. change (zeros (S n)) with (0 :: zeros n). cbn [trim_nul]. now rewrite IH. Qed.
Lemma trim_app_zeros s n : trim_nul (s ++ zeros n) = trim_nul s.
Proof. induction s as [|c s IH]; cbn [app trim_nul]; [apply trim_zeros|]. now rewrite IH. Qed.
Lemma trim_id s : last s 1 <> 0 -> trim_nul s = s.
Proof.
  induction s as [|c s IH]; intros H; [reflexivity|]. cbn [trim_nul]. destruct s as [|d s].
  - cbn in *. destruct (Z.eqb_spec c 0); [contradiction|reflexivity].
  - change (last (d :: s) 1 <> 0) in H. rewrite IH by exact H. reflexivity.
Qed.
Lemma trim_put n s : padded_text n s -> trim_nul (put_str n s) = s.
Proof. intros (L & T). unfold put_str. rewrite firstn_all2 by exact L. rewrite trim_app_zeros. now apply trim_id. Qed.

(* ---- payloads ---- *)
Lemma take_app n a r : length a = n -> take_bytes n (a ++ r) = Some (a, r).
Proof. intros <-. unfold take_bytes. rewrite app_length. replace (_ <=? _)%nat with true by (symmetry; apply Nat.leb_le; lia). now rewrite first_app, skip_app. Qed.
Lemma dec_u_app n v r : 0 <= v < 2 ^ (8 * Z.of_nat n) -> dec_u n (le_enc n v ++ r) = Some (v, r).
Proof. intros R. unfold dec_u. rewrite take_app by apply le_enc_length. rewrite le_dec_enc, Z.mod_small by exact R. reflexivity. Qed.
Lemma dec_eb_enc e r : wf_eb e -> wf_eb_text e -> dec_eb (enc_eb e ++ r) = Some (e, r).
Proof.
  intros (A1 & A2 & A3 & A4 & L1 & L2 & L3 & L4 & L5) (T1 & T2). unfold dec_eb, enc_eb, enc_u8, enc_u16, enc_u32. rewrite <- !app_assoc.
  rewrite !dec_u_app by assumption. rewrite take_app by apply put_str_length. rewrite dec_u_app by assumption. rewrite !take_app by assumption. rewrite take_app by apply put_str_length.
  rewrite !trim_put by assumption. destruct e; reflexivity.
Qed.
Lemma dec_ebs_enc items r : Forall wf_eb items -> Forall wf_eb_text items -> dec_eb_vlr (eb_vlr_size items) (enc_eb_vlr items ++ r) = Some (items, r).
Proof.
  intros A B. unfold dec_eb_vlr, eb_vlr_size, enc_eb_vlr. rewrite Z.mul_comm, Z.div_mul, Nat2Z.id by lia. apply dec_many_enc.
  intros e s I. rewrite Forall_forall in A, B. apply dec_eb_enc; auto.
Qed.
Lemma dec_info_enc i a b r : wf_info i -> dec_info (enc_info i a b ++ r) = Some (i, r).
Proof.
  intros (A & B). unfold dec_info, enc_info. rewrite <- !app_assoc, !dec_f64_enc. unfold enc_u64. rewrite !dec_u_app by assumption. rewrite !dec_f64_enc.
  rewrite take_app by apply zeros_length. destruct i; reflexivity.
Qed.

(* ---- record headers ---- *)
Definition dec_of (e : bool) := if e then dec_evlr_header else dec_vlr_header.
Definition seen_as (e : bool) (v : vlr_header) : vlr_header := mkVlrH e (v_res v) (trim_nul (put_str 16 (v_user v))) (v_rec v) (v_len v) (trim_nul (put_str 32 (v_desc v))).
Definition ids_ok (x : vlr_header * bytes) : Prop := 0 <= v_res (fst x) < 65536 /\ 0 <= v_rec (fst x) < 65536.
Lemma dec_rec e x r : rec_ok e x -> ids_ok x -> dec_of e (rec_bytes e x ++ r) = Some (seen_as e (fst x), snd x ++ r).
Proof.
  intros (L & R) (A & B). assert (0 <= v_len (fst x)) by lia. unfold dec_of, rec_bytes. destruct e.
  - unfold dec_evlr_header, enc_evlr_header, enc_u16, enc_u64. rewrite <- !app_assoc. rewrite dec_u_app by assumption. rewrite take_app by apply put_str_length.
    rewrite dec_u_app by assumption. rewrite dec_u_app by (rewrite L; split; [lia|exact R]). rewrite take_app by apply put_str_length. reflexivity.
  - unfold dec_vlr_header, enc_vlr_header, enc_u16. rewrite <- !app_assoc. rewrite dec_u_app by assumption. rewrite take_app by apply put_str_length.
    rewrite dec_u_app by assumption. rewrite dec_u_app by (rewrite L; split; [lia|exact R]). rewrite take_app by apply put_str_length. reflexivity.
Qed.
Fixpoint listed (e : bool) (pos : Z) (rs : list (vlr_header * bytes)) : vlr_map :=
  match rs with [] => [] | x :: r => (pos, seen_as e (fst x)) :: listed e (pos + rec_head e + Z.of_nat (length (snd x))) r end.
Lemma vins_end o v m : Forall (fun p => fst p < o) m -> vins o v m = m ++ [(o, v)].
Proof.
  induction 1 as [|(p, u) m H F IH]; [reflexivity|]. cbn [vins app fst] in *. destruct (Z.ltb_spec o p); [lia|]. destruct (Z.eqb_spec o p); [lia|]. now rewrite IH.
Qed.
Lemma recs_cons e x rs : recs_bytes e (x :: rs) = rec_bytes e x ++ recs_bytes e rs.
Proof. reflexivity. Qed.
Lemma recs_app e a b : recs_bytes e (a ++ b) = recs_bytes e a ++ recs_bytes e b.
Proof. unfold recs_bytes. now rewrite map_app, concat_app. Qed.
Lemma read_recs e rs : forall pre post pos m, pos = Z.of_nat (length pre) -> Forall (rec_ok e) rs -> Forall ids_ok rs -> Forall (fun p => fst p < pos) m ->
  read_vlr_headers (dec_of e) (rec_head e) (length rs) pos (pre ++ recs_bytes e rs ++ post) m = Ok (m ++ listed e pos rs).
Proof.
  induction rs as [|x rs IH]; intros pre post pos m -> OK IDS LT; [cbn; now rewrite app_nil_r|]. inversion OK as [|? ? O1 O2]; subst. inversion IDS as [|? ? I1 I2]; subst.
  cbn [length read_vlr_headers]. rewrite recs_cons, <- app_assoc. set (f := pre ++ _).
  assert (EF : (Z.of_nat (length pre) <? 0) || (Z.of_nat (length f) <? Z.of_nat (length pre)) = false) by (unfold f; rewrite app_length; lia). rewrite EF.
  rewrite Nat2Z.id. replace (skipn (length pre) f) with (rec_bytes e x ++ recs_bytes e rs ++ post) by (unfold f; now rewrite skip_app).
  rewrite dec_rec by assumption. cbn [v_len seen_as]. rewrite (proj1 O1). rewrite vins_end by exact LT.
  pose proof (rec_bytes_length e x) as RL. unfold f. rewrite (app_assoc pre).
  rewrite IH; [|rewrite app_length; lia|exact O2|exact I2|].
  - rewrite <- app_assoc. cbn [app listed]. reflexivity.
  - assert (0 < rec_head e) by (destruct e; cbn; lia). apply Forall_app. split; [|constructor; [cbn [fst]; lia|constructor]].
    eapply Forall_impl; [|exact LT]. cbn. intros a Ha. lia.
Qed.

(* ---- looking records up ---- *)
Definition hit (user : bytes) (id : Z) (x : vlr_header * bytes) : bool := str_eqb (trim_nul (put_str 16 (v_user (fst x)))) user && (v_rec (fst x) =? id).
Definition misses (user : bytes) (id : Z) (rs : list (vlr_header * bytes)) : Prop := Forall (fun x => hit user id x = false) rs.
Lemma fetch_miss e user id rs : forall pos m, misses user id rs -> fetch_vlr (listed e pos rs ++ m) user id = fetch_vlr m user id.
Proof.
  induction rs as [|x rs IH]; intros pos m H; [reflexivity|]. inversion H as [|? ? H1 H2]; subst. cbn [listed app fetch_vlr seen_as v_user v_rec].
  unfold hit in H1. rewrite H1. now apply IH.
Qed.
Lemma fetch_hit e user id x rs2 : hit user id x = true -> forall rs1 pos m, misses user id rs1 ->
  fetch_vlr (listed e pos (rs1 ++ x :: rs2) ++ m) user id = pos + Z.of_nat (length (recs_bytes e rs1)).
Proof.
  intros HX. induction rs1 as [|y rs1 IH]; intros pos m H.
  - cbn [app listed fetch_vlr seen_as v_user v_rec]. unfold hit in HX. rewrite HX. cbn. lia.
  - inversion H as [|? ? H1 H2]; subst. cbn [listed app fetch_vlr seen_as v_user v_rec]. unfold hit in H1. rewrite H1. rewrite IH by assumption.
    rewrite recs_cons, app_length. pose proof (rec_bytes_length e y). lia.
Qed.
Lemma vget_past o m m' : Forall (fun p => fst p < o) m -> vget o (m ++ m') = vget o m'.
Proof. induction 1 as [|(p, u) m H F IH]; [reflexivity|]. cbn [app vget fst] in *. destruct (Z.eqb_spec p o); [lia|exact IH]. Qed.
Lemma listed_below e rs : forall pos, Forall (fun p => pos <= fst p < pos + Z.of_nat (length (recs_bytes e rs))) (listed e pos rs).
Proof.
  induction rs as [|x rs IH]; intros pos; [constructor|]. assert (0 < rec_head e) by (destruct e; cbn; lia). pose proof (rec_bytes_length e x).
  cbn [listed]. rewrite recs_cons, app_length. constructor; [cbn [fst]; lia|]. eapply Forall_impl; [|apply IH]. cbn. intros a Ha. lia.
Qed.
Lemma listed_app e a b : forall pos, listed e pos (a ++ b) = listed e pos a ++ listed e (pos + Z.of_nat (length (recs_bytes e a))) b.
Proof.
  induction a as [|x a IH]; intros pos; [cbn; f_equal; lia|]. cbn [app listed]. rewrite IH. cbn [app]. do 3 f_equal.
  rewrite recs_cons, app_length. pose proof (rec_bytes_length e x). lia.
Qed.
Lemma vget_hit e rs1 x rs2 pos m0 m : Forall (fun p => fst p < pos) m0 ->
  vget (pos + Z.of_nat (length (recs_bytes e rs1))) (m0 ++ listed e pos (rs1 ++ x :: rs2) ++ m) = Some (seen_as e (fst x)).
Proof.
  intros F0. rewrite listed_app, <- !app_assoc. rewrite vget_past by (eapply Forall_impl; [|exact F0]; cbn; intros a Ha; lia).
  rewrite vget_past by (eapply Forall_impl; [|apply listed_below]; cbn; intros a Ha; lia). cbn [listed app vget]. now rewrite Z.eqb_refl.
Qed.
Lemma payload e rs1 x rs2 pre post pos : pos = Z.of_nat (length pre) ->
  skipn (Z.to_nat (pos + Z.of_nat (length (recs_bytes e rs1)) + rec_head e)) (pre ++ recs_bytes e (rs1 ++ x :: rs2) ++ post) = snd x ++ recs_bytes e rs2 ++ post.
Proof.
  intros ->. rewrite recs_app, recs_cons. unfold rec_bytes. set (h := if e then _ else _).
  assert (LH : Z.of_nat (length h) = rec_head e) by (unfold h, rec_head; destruct e; rewrite ?evlr_header_length, ?vlr_header_length; reflexivity). clearbody h.
  replace (pre ++ _ ++ post) with ((pre ++ recs_bytes e rs1 ++ h) ++ snd x ++ recs_bytes e rs2 ++ post) by (rewrite <- !app_assoc; reflexivity).
  apply skip_app. rewrite !app_length. unfold rec_head in *. destruct e; lia.
Qed.
Lemma find_rec e rs1 x rs2 pre post pos m0 m' user id : pos = Z.of_nat (length pre) -> 0 < pos -> Forall (fun p => fst p < pos) m0 ->
  (forall m, fetch_vlr (m0 ++ m) user id = fetch_vlr m user id) -> misses user id rs1 -> hit user id x = true -> rec_ok e x -> Z.of_nat (length (snd x)) < 2 ^ 31 ->
  let m := m0 ++ listed e pos (rs1 ++ x :: rs2) ++ m' in let off := fetch_vlr m user id in
  off = pos + Z.of_nat (length (recs_bytes e rs1)) /\ (off =? 0) = false /\ len_at off m = Z.of_nat (length (snd x)) /\
  exists t, skipn (Z.to_nat (off + rec_head e)) (pre ++ recs_bytes e (rs1 ++ x :: rs2) ++ post) = snd x ++ t.
Proof.
  intros P P0 F0 M0 M1 H OK SM m off. assert (EO : off = pos + Z.of_nat (length (recs_bytes e rs1))).
  { unfold off, m. rewrite M0. now apply fetch_hit. }
  split; [exact EO|]. split; [apply Z.eqb_neq; lia|]. split.
  - unfold len_at. rewrite EO. unfold m. rewrite vget_hit by exact F0. cbn [v_len seen_as]. rewrite (proj1 OK). apply to_s_id; lia.
  - rewrite EO. rewrite payload by exact P. eauto.
Qed.

(* the records of a written file *)
Lemma vlr_recs_ids c : Forall ids_ok (vlr_recs c).
Proof.
  unfold vlr_recs. rewrite !Forall_app. repeat split; try (destruct (_ : bool)); repeat constructor; cbn; lia.
Qed.
Lemma evlr_recs_ids od ws wkt : Forall ids_ok (evlr_recs od ws wkt).
Proof.
  unfold evlr_recs. apply Forall_app. split.
  - apply Forall_forall. intros x I. apply in_map_iff in I as (i & <- & _). split; cbn; lia.
  - destruct wkt; repeat constructor; cbn; lia.
Qed.
Lemma pages_miss od ws user id : hit user id (mkVlrH true 0 s_copc 1000 0 [], []) = false -> misses user id (map (page_rec od) ws).
Proof. intros H. apply Forall_forall. intros x I. apply in_map_iff in I as (i & <- & _). exact H. Qed.

Lemma list_cases {A} (x : list A) : x = [] \/ exists a r, x = a :: r.
Proof. destruct x; eauto. Qed.
Section Opened.
Variables (cd : codec) (od : orders) (w : writer) (cs : list (bytes * Z)) (PG : kmap wpage) (ws : list page_info) (l : header14) (w' : writer).
Hypotheses (RO : reorders od) (C : closed cd od w cs PG ws l w') (LEN : Z.of_nat (length (file w')) < 2 ^ 64).
Hypotheses (EB : (length (c_ebs (w_cfg w')) <= 341)%nat) (NP : Z.of_nat (length (w_pages w)) < 2 ^ 32 - 1) (ND : NoDup (map fst (w_pages w))) (RT : In root_key (map fst (w_pages w))).
Hypotheses (ID1 : id_string 16 (h_guid (c_hdr (w_cfg w')))) (ID2 : id_string 32 (h_sys (c_hdr (w_cfg w')))) (ID3 : id_string 32 (h_gen (c_hdr (w_cfg w')))).
Hypotheses (EX : Forall extent_ok (xs_items (c_exts (w_cfg w')))) (ET : Forall wf_eb_text (c_ebs (w_cfg w'))) (EZ : c_ebs (w_cfg w') = [] \/ 0 < eb_total (c_ebs (w_cfg w'))) (WK : Z.of_nat (length (c_wkt (w_cfg w'))) < 2 ^ 31).
Let c := w_cfg w'.
Let f := file w'.
Let rs := vlr_recs c.
Let evs := evlr_recs od ws (c_wkt c).
Let ev := ev_start cd (w_cfg w) cs.
Let m := listed false 375 rs ++ listed true ev evs.

Lemma op_parts : c_hdr c = c_hdr (w_cfg w) /\ c_wkt c = c_wkt (w_cfg w) /\ c_ebs c = c_ebs (w_cfg w) /\ c_exts c = c_exts (w_cfg w).
Proof. unfold c. rewrite (cl_cfg _ _ _ _ _ _ _ _ C). apply cfg_with_parts. Qed.
Lemma op_f1 : exists post, f = enc_header14 l ++ recs_bytes false rs ++ post.
Proof.
  unfold f. rewrite (file_split _ _ _ _ _ _ _ _ C). unfold head_area. rewrite vlr_part_recs, <- !app_assoc. fold c rs. eauto.
Qed.
Lemma op_f2 : exists pre, f = pre ++ recs_bytes true evs ++ [] /\ ev = Z.of_nat (length pre).
Proof.
  eexists. split; [|apply (ev_start_pos _ _ _ _ _ _ _ _ C)]. unfold f. rewrite (file_split _ _ _ _ _ _ _ _ C), app_nil_r, <- app_assoc.
  unfold evs. destruct op_parts as (_ & -> & _). reflexivity.
Qed.
Lemma op_recs : Forall (rec_ok false) rs /\ Forall (rec_ok true) evs.
Proof.
  split; [apply vlr_recs_ok; [apply C|exact EB]|]. unfold evs. destruct op_parts as (_ & -> & _). apply (evlr_ok _ _ _ _ _ _ _ _ RO C LEN).
Qed.
Lemma op_below : 375 + Z.of_nat (length (recs_bytes false rs)) <= ev.
Proof.
  unfold ev. rewrite (ev_start_pos _ _ _ _ _ _ _ _ C). unfold head_area. rewrite !app_length, (cl_hlen _ _ _ _ _ _ _ _ C), vlr_part_recs. fold c rs. lia.
Qed.
Lemma op_below' : Forall (fun p => fst p < ev) (listed false 375 rs).
Proof. pose proof op_below as B. eapply Forall_impl; [|apply listed_below]. cbv beta. intros a Ha. clear - B Ha. lia. Qed.
Lemma op_fields : l_vlrs l = Z.of_nat (length rs) /\ l_evcnt l = Z.of_nat (length evs) /\ l_evoff l = ev /\ l_hsize l = 375 /\ l_fmt l = Z.lor (to_u 8 (h_fmt (c_hdr c))) 128.
Proof.
  pose proof (head_fields _ _ _ _ _ _ _ _ C LEN) as (_ & H2 & H3 & H4 & _).
  pose proof (header_fields l (recs_bytes false rs ++ skipn (length (enc_header14 l ++ recs_bytes false rs)) f) (wf_l _ _ _ _ _ _ _ _ C LEN)) as F. cbv zeta in F.
  destruct op_f1 as (post & E1). assert (E : enc_header14 l ++ recs_bytes false rs ++ skipn (length (enc_header14 l ++ recs_bytes false rs)) f = f).
  { rewrite E1 at 1. rewrite !app_assoc, skip_app by reflexivity. rewrite E1. now rewrite !app_assoc. }
  rewrite E in F. destruct F as (_ & F2 & _ & F3 & F4 & _). split; [rewrite <- F2; exact H2|]. split; [|split; [rewrite <- F3; exact H3|]].
  - rewrite <- F4. unfold f. rewrite H4. destruct (evlr_total _ _ _ _ _ _ _ _ C ND) as (T & _). unfold evs. destruct op_parts as (_ & -> & _). rewrite T.
    unfold ev_count, to_u. destruct (c_wkt (w_cfg w)); rewrite ?(Z.mod_small (Z.of_nat (length (w_pages w)))), ?Z.mod_small; lia.
  - pose proof (cl_hdr _ _ _ _ _ _ _ _ C) as H. unfold to_lazperf in H. apply bind_ok in H as (v & _ & H). apply (f_equal (fun o => match o with Ok a => a | _ => l end)) in H. rewrite <- H.
    cbn [l_hsize l_fmt]. destruct op_parts as (-> & _). split; reflexivity.
Qed.
Lemma op_read_h : read_header14 f = Ok (h14_masked l) /\ Z.land (l_fmt l) 63 = h_fmt (c_hdr c).
Proof.
  destruct op_fields as (_ & _ & _ & _ & E). destruct op_f1 as (post & EF). rewrite EF. pose proof (cl_ok _ _ _ _ _ _ _ _ C) as (_ & F & _). fold c in F.
  destruct (fmt_mask (h_fmt (c_hdr c))) as (M1 & M2); [lia|lia|]. split; [|now rewrite E].
  apply read_header14_enc; [apply (wf_l _ _ _ _ _ _ _ _ C LEN)|]. now rewrite E.
Qed.
Lemma op_map : read_all_vlrs (h14_masked l) f = Ok m.
Proof.
  unfold read_all_vlrs, h14_masked. cbn [l_vlrs l_hsize l_evcnt l_evoff]. destruct op_fields as (-> & -> & -> & -> & _). rewrite !Nat2Z.id.
  destruct op_recs as (O1 & O2). destruct op_f1 as (post & E1). destruct op_f2 as (pre & E2 & EP).
  pose proof (read_recs false rs (enc_header14 l) post 375 []) as R1. cbn [dec_of rec_head] in R1. change EVLR_HEADER_SIZE with 60. change VLR_HEADER_SIZE with 54.
  rewrite E1 at 1. rewrite R1; [|now rewrite (cl_hlen _ _ _ _ _ _ _ _ C)|exact O1|apply vlr_recs_ids|constructor]. cbn [bind app].
  pose proof (read_recs true evs pre [] ev (listed false 375 rs)) as R2. cbn [dec_of rec_head] in R2. rewrite E2.
  apply R2; [exact EP|exact O2|apply evlr_recs_ids|apply op_below'].
Qed.
(* lookups *)
Lemma op_find rs1 x rs2 user id : rs = rs1 ++ x :: rs2 -> misses user id rs1 -> hit user id x = true ->
  let off := fetch_vlr m user id in off = 375 + Z.of_nat (length (recs_bytes false rs1)) /\ (off =? 0) = false /\ len_at off m = Z.of_nat (length (snd x)) /\
  exists t, skipn (Z.to_nat (off + VLR_HEADER_SIZE)) f = snd x ++ t.
Proof.
  intros E M H. destruct op_f1 as (post & EF). rewrite EF. destruct op_recs as (O1 & _).
  assert (OX : rec_ok false x) by (rewrite Forall_forall in O1; apply O1; rewrite E; apply in_elt).
  pose proof (find_rec false rs1 x rs2 (enc_header14 l) post 375 [] (listed true ev evs) user id) as F. cbn [app] in F. rewrite <- E in F. fold m in F.
  apply F; [now rewrite (cl_hlen _ _ _ _ _ _ _ _ C)|lia|constructor|reflexivity|exact M|exact H|exact OX|]. pose proof (proj2 OX). cbn in *. lia.
Qed.
Lemma op_find_e rs1 x rs2 user id : evs = rs1 ++ x :: rs2 -> misses user id rs -> misses user id rs1 -> hit user id x = true -> Z.of_nat (length (snd x)) < 2 ^ 31 ->
  let off := fetch_vlr m user id in (off =? 0) = false /\ len_at off m = Z.of_nat (length (snd x)) /\
  exists t, skipn (Z.to_nat (off + EVLR_HEADER_SIZE)) f = snd x ++ t.
Proof.
  intros E M0 M H L31. destruct op_f2 as (pre & EF & EP). rewrite EF. destruct op_recs as (_ & O1).
  assert (OX : rec_ok true x) by (rewrite Forall_forall in O1; apply O1; rewrite E; apply in_elt).
  pose proof (find_rec true rs1 x rs2 pre [] ev (listed false 375 rs) [] user id EP) as F. rewrite (app_nil_r (listed true ev _)) in F. rewrite <- E in F. fold m in F.
  pose proof op_below. apply F; [lia|apply op_below'|intros; now apply fetch_miss|exact M|exact H|exact OX|exact L31].
Qed.
Ltac misses := repeat (constructor; [reflexivity|]); constructor.
Definition ext_recs := if xs_ext (c_exts c) then [(extended_vlr_header (extents_to_extended (c_exts c)), enc_pairs (extents_to_extended (c_exts c)))] else [].
Definition eb_recs := if 0 <? eb_total (c_ebs c) then [(eb_vlr_header (c_ebs c), enc_eb_vlr (c_ebs c))] else [].
Lemma op_rs : exists i x laz, i = (info_vlr_header, enc_info (c_info c) (ex_min (gps_extent c)) (ex_max (gps_extent c))) /\
  x = (extents_vlr_header (extents_to_vlr (c_exts c)), enc_pairs (extents_to_vlr (c_exts c))) /\ v_user (fst laz) = s_laszip /\ v_rec (fst laz) = 22204 /\ rs = i :: x :: ext_recs ++ eb_recs ++ [laz].
Proof. do 3 eexists. split; [reflexivity|]. split; [reflexivity|]. split; [|split; [|reflexivity]]; reflexivity. Qed.
Lemma laz_miss laz user id : v_user (fst laz) = s_laszip -> v_rec (fst laz) = 22204 -> id <> 22204 -> hit user id laz = false.
Proof. intros A B D. unfold hit. rewrite B. destruct (Z.eqb_spec 22204 id); [congruence|]. apply andb_false_r. Qed.
Lemma ext_miss user id : id <> 10001 -> misses user id ext_recs.
Proof. intros D. unfold ext_recs. destruct (xs_ext _); constructor; [|constructor]. unfold hit. cbn [fst v_rec extended_vlr_header]. destruct (Z.eqb_spec 10001 id); [congruence|]. apply andb_false_r. Qed.
Lemma eb_miss user id : id <> 4 -> misses user id eb_recs.
Proof. intros D. unfold eb_recs. destruct (0 <? _); constructor; [|constructor]. unfold hit. cbn [fst v_rec eb_vlr_header]. destruct (Z.eqb_spec 4 id); [congruence|]. apply andb_false_r. Qed.
Lemma op_info : read_info m f = Ok (c_info c) /\ fetch_vlr m s_copc 1 = 375.
Proof.
  destruct op_rs as (i & x & laz & EI & EXT & _ & _ & E). assert (H : hit s_copc 1 i = true) by (subst i; reflexivity).
  destruct (op_find [] i _ s_copc 1 E (Forall_nil _) H) as (A & B & L & t & T). cbn [recs_bytes map concat length] in A. change (375 + Z.of_nat 0) with 375 in A.
  split; [|exact A]. unfold read_info. rewrite B. rewrite A in T |- *. change (375 =? INFO_VLR_OFFSET) with true. cbn [negb]. rewrite T. subst i. cbn [snd].
  rewrite dec_info_enc; [reflexivity|]. apply (cl_ok _ _ _ _ _ _ _ _ C).
Qed.
Lemma eb_size16 : to_u 16 (eb_vlr_size (c_ebs c)) = eb_vlr_size (c_ebs c).
Proof. unfold to_u, eb_vlr_size. fold c in EB. apply Z.mod_small. change (2 ^ 16) with 65536. lia. Qed.
Lemma ev_miss user id : id <> 1000 -> id <> 2112 -> misses user id evs.
Proof.
  intros A B. unfold evs, evlr_recs. apply Forall_app. split; [apply pages_miss|].
  - unfold hit. cbn [fst v_rec]. destruct (Z.eqb_spec 1000 id); [congruence|]. apply andb_false_r.
  - destruct (c_wkt c); constructor; [|constructor]. unfold hit. cbn [fst v_rec wkt_evlr_header]. destruct (Z.eqb_spec 2112 id); [congruence|]. apply andb_false_r.
Qed.
Lemma op_ebs : read_ebs m f = Ok (c_ebs c).
Proof.
  destruct op_rs as (i & x & laz & EI & EXT & U & V & E). unfold read_ebs.
  assert (M2 : misses s_las_spec 4 (i :: x :: ext_recs)).
  { constructor; [subst i; reflexivity|]. constructor; [subst x; reflexivity|]. apply ext_miss. discriminate. }
  unfold eb_recs in E. fold c in EZ. pose proof (cl_ok _ _ _ _ _ _ _ _ C) as OK. fold c in OK. destruct (good_eb_size _ OK) as (_ & B0 & _).
  destruct (Z.ltb_spec 0 (eb_total (c_ebs c))) as [P|P].
  - destruct (op_find (i :: x :: ext_recs) (eb_vlr_header (c_ebs c), enc_eb_vlr (c_ebs c)) [laz] s_las_spec 4 E M2 eq_refl) as (A & B & L & t & T).
    rewrite B, L, T. cbn [snd]. assert (WE : Forall wf_eb (c_ebs c)) by apply OK. rewrite enc_ebs_length by exact WE. change (192 * Z.of_nat (length (c_ebs c))) with (eb_vlr_size (c_ebs c)).
    rewrite dec_ebs_enc; [reflexivity|exact WE|exact ET].
  - destruct EZ as [EZ'|EZ']; [|lia].
    assert (F : fetch_vlr m s_las_spec 4 = 0).
    { unfold m. rewrite fetch_miss. 
      - rewrite <- (app_nil_r (listed true ev evs)), fetch_miss; [reflexivity|]. apply ev_miss; discriminate.
      - rewrite E. cbn [app]. change (i :: x :: ext_recs ++ [laz]) with ((i :: x :: ext_recs) ++ [laz]). apply Forall_app. split; [exact M2|].
        constructor; [|constructor]. apply laz_miss; [exact U|exact V|discriminate]. }
    rewrite F, EZ'. reflexivity.
Qed.
Lemma op_miss user id : id <> 1 -> id <> 10000 -> id <> 10001 -> id <> 4 -> id <> 22204 -> misses user id rs.
Proof.
  intros A B D E F. destruct op_rs as (i & x & laz & EI & EXT & U & V & ->). constructor; [|constructor; [|apply Forall_app; split; [|apply Forall_app; split; [|constructor; [|constructor]]]]].
  - subst i. unfold hit. cbn [fst v_rec info_vlr_header]. destruct (Z.eqb_spec 1 id); [congruence|]. apply andb_false_r.
  - subst x. unfold hit. cbn [fst v_rec extents_vlr_header]. destruct (Z.eqb_spec 10000 id); [congruence|]. apply andb_false_r.
  - now apply ext_miss.
  - now apply eb_miss.
  - now apply laz_miss.
Qed.
Lemma op_wkt : read_wkt m f = Ok (c_wkt c).
Proof.
  assert (M0 : misses s_las_proj 2112 rs) by (apply op_miss; discriminate). unfold read_wkt.
  assert (M1 : misses s_las_proj 2112 (map (page_rec od) ws)) by (apply pages_miss; reflexivity).
  destruct (list_cases (c_wkt c)) as [EW|(b & r & EW)]; rewrite EW.
  - assert (F : fetch_vlr m s_las_proj 2112 = 0).
    { unfold m. rewrite fetch_miss by exact M0. rewrite <- (app_nil_r (listed true ev evs)), fetch_miss; [reflexivity|]. unfold evs, evlr_recs. rewrite EW, app_nil_r. exact M1. }
    rewrite F. reflexivity.
  - assert (E : evs = map (page_rec od) ws ++ (wkt_evlr_header (b :: r), b :: r) :: []) by (unfold evs, evlr_recs; now rewrite EW).
    assert (L31 : Z.of_nat (length (b :: r)) < 2 ^ 31) by (fold c in WK; rewrite EW in WK; exact WK).
    destruct (op_find_e _ _ _ s_las_proj 2112 E M0 M1 eq_refl L31) as (B & L & t & T). rewrite B, L, T. cbn [snd]. unfold dec_wkt.
    replace (_ <? 0) with false by lia. rewrite Nat2Z.id, take_app by reflexivity. reflexivity.
Qed.
Lemma op_page : (fetch_vlr m s_copc 1000 =? 0) = false.
Proof.
  assert (M0 : misses s_copc 1000 rs) by (apply op_miss; discriminate).
  destruct (evlr_total _ _ _ _ _ _ _ _ C ND) as (_ & TL). destruct (list_cases ws) as [EWS|(p & ps & EWS)].
  { exfalso. rewrite EWS in TL. clear - TL RT. destruct (w_pages w); [exact RT|discriminate TL]. }
  unfold m. rewrite fetch_miss by exact M0. rewrite <- (app_nil_r (listed true ev evs)).
  assert (E : evs = [] ++ page_rec od p :: (map (page_rec od) ps ++ match c_wkt c with [] => [] | _ => [(wkt_evlr_header (c_wkt c), c_wkt c)] end)) by (unfold evs, evlr_recs; rewrite EWS; reflexivity).
  rewrite E, fetch_hit; [|reflexivity|constructor]. cbn [recs_bytes map concat length]. pose proof op_below. apply Z.eqb_neq. lia.
Qed.
Lemma op_pairs rs1 v u rs2 user id : rs = rs1 ++ (v, enc_pairs u) :: rs2 -> misses user id rs1 -> hit user id (v, enc_pairs u) = true ->
  (fetch_vlr m user id =? 0) = false /\ read_pairs (fetch_vlr m user id) m f = Ok u.
Proof.
  intros E M H. destruct (op_find _ _ _ _ _ E M H) as (A & B & L & t & T). split; [exact B|]. unfold read_pairs. rewrite L, T. cbn [snd]. rewrite enc_pairs_length, dec_pairs_enc. reflexivity.
Qed.
Definition seen_exts (x : extents) : extents := mkExts (xs_fmt x) (xs_ext x) (if xs_ext x then xs_items x else map plain (xs_items x)).
Lemma op_exts : read_extents (h14_masked l) m (c_ebs c) f = Ok (seen_exts (c_exts c)).
Proof.
  destruct op_rs as (i & x & laz & EI & EXT & U & V & E). pose proof (cl_ok _ _ _ _ _ _ _ _ C) as OK. fold c in OK. destruct OK as (_ & F & XF & SH & _).
  assert (M1 : misses s_copc 10000 [i]) by (constructor; [subst i; reflexivity|constructor]).
  pose proof (op_pairs [i] (extents_vlr_header (extents_to_vlr (c_exts c))) (extents_to_vlr (c_exts c)) (ext_recs ++ eb_recs ++ [laz]) s_copc 10000) as P1. rewrite <- EXT in P1.
  destruct (P1 E M1) as (B1 & R1); [subst x; reflexivity|]. unfold read_extents. rewrite B1, R1. cbn [bind h14_masked l_fmt]. destruct op_read_h as (_ & ->).
  pose proof SH as (_ & NR & _). unfold to_u. rewrite Z.mod_small by (change (2 ^ 16) with 65536; lia). rewrite <- XF.
  rewrite (extents_vlr_back _ _ _ SH) by (fold c in EX; eapply Forall_impl; [|exact EX]; now intros a (A & _)). cbn [bind].
  assert (M2 : misses s_rock 10001 [i; x]) by (constructor; [subst i; reflexivity|constructor; [subst x; reflexivity|constructor]]).
  unfold seen_exts. unfold ext_recs in E. destruct (xs_ext (c_exts c)) eqn:XE.
  - pose proof (op_pairs [i; x] (extended_vlr_header (extents_to_extended (c_exts c))) (extents_to_extended (c_exts c)) (eb_recs ++ [laz]) s_rock 10001 E M2 eq_refl) as (B2 & R2).
    rewrite B2, R2. cbn [negb bind]. rewrite set_extended_back. reflexivity.
  - assert (Z0 : fetch_vlr m s_rock 10001 = 0).
    { unfold m. rewrite fetch_miss.
      - rewrite <- (app_nil_r (listed true ev evs)), fetch_miss; [reflexivity|]. apply ev_miss; discriminate.
      - rewrite E. change (misses s_rock 10001 ([i; x] ++ eb_recs ++ [laz])). apply Forall_app. split; [exact M2|]. apply Forall_app. split; [apply eb_miss; discriminate|].
        constructor; [|constructor]. apply laz_miss; [exact U|exact V|discriminate]. }
    rewrite Z0. reflexivity.
Qed.
Lemma op_header : exists h, from_lazperf (h14_masked l) = Ok h /\ h =
  mkHdr (h_src (c_hdr c)) (Z.lor (h_enc (c_hdr c)) 16) (h_day (c_hdr c)) (h_year (c_hdr c)) (h_max (c_hdr c)) (h_min (c_hdr c)) (h_pbr (c_hdr c)) (h_scale (c_hdr c)) (h_offset (c_hdr c))
    (h_fmt (c_hdr c)) (h_reclen (c_hdr c)) (to_u 64 (total_points cs)) (data_start c) (announced_vlrs true (negb (eb_total (c_ebs c) =? 0)) (xs_ext (c_exts c))) ev (Z.of_nat (length evs)) (h_guid (c_hdr c)) (h_sys (c_hdr c)) (h_gen (c_hdr c)) true.
Proof.
  eexists. split; [|reflexivity]. destruct op_read_h as (RH & _). destruct op_f1 as (post & EF).
  pose proof (cl_ok _ _ _ _ _ _ _ _ C) as OK. fold c in OK. destruct OK as (CP & F & _ & _ & _ & _ & WH & _).
  pose proof (cl_hdr _ _ _ _ _ _ _ _ C) as H. destruct op_parts as (P1 & P2 & P3 & P4). rewrite <- P1, <- P3, <- P4 in H.
  assert (DS : data_start (w_cfg w) = data_start c) by (unfold c; rewrite (cl_cfg _ _ _ _ _ _ _ _ C); symmetry; apply start_with).
  pose proof (ds_range _ _ _ _ _ _ _ _ C) as DR. rewrite DS in *.
  assert (EC : ev_count (w_cfg w) (length (w_pages w)) = Z.of_nat (length evs)).
  { destruct op_fields as (_ & <- & _). unfold to_lazperf in H. apply bind_ok in H as (v & _ & H). apply (f_equal (fun o => match o with Ok a => a | _ => l end)) in H. rewrite <- H. reflexivity. }
  fold ev in H. rewrite EC in H.
  assert (FT : fits (data_start c) (to_u 64 (total_points cs)) ev (Z.of_nat (length evs))).
  { split; [lia|]. split; [unfold to_u; apply Z.mod_pos_bound; lia|]. destruct op_f2 as (pre & E2 & E3). fold f in LEN. rewrite E2, app_length in LEN. split; [lia|]. split; [lia|].
    rewrite <- EC. unfold ev_count, to_u. destruct (c_wkt (w_cfg w)); apply Z.mod_pos_bound; lia. }
  destruct (header_roundtrip _ _ _ _ _ _ _ l (recs_bytes false rs ++ post) WH FT F ID1 ID2 ID3 H) as (_ & R). rewrite <- EF in R. unfold read_las_header in R. rewrite RH in R. cbn [bind] in R. rewrite R, CP. reflexivity.
Qed.
Lemma open_closed isf : exists r, open_reader isf f = Ok r /\ from_lazperf (h14_masked l) = Ok (c_hdr (r_cfg r)) /\ c_wkt (r_cfg r) = c_wkt c /\ c_ebs (r_cfg r) = c_ebs c /\ c_info (r_cfg r) = c_info c /\ c_exts (r_cfg r) = seen_exts (c_exts c).
Proof.
  destruct op_header as (h & H & EH). unfold open_reader, init_reader. destruct op_read_h as (-> & _). cbn [bind]. rewrite H. cbn [bind]. rewrite op_map. cbn [bind]. rewrite op_wkt. cbn [bind]. rewrite op_ebs. cbn [bind br_vlrs br_cfg br_h14 z_ebs z_hdr z_wkt].
  destruct op_info as (RI & ->). rewrite op_page. change (375 =? 0) with false. cbn [orb]. rewrite RI. cbn [bind]. rewrite op_exts. cbn [bind]. unfold config_of.
  rewrite copy_extents_ok.
  - cbn [bind]. eexists. split; [reflexivity|]. cbn [r_cfg c_hdr c_wkt c_ebs c_info c_exts]. split; [|auto]. f_equal. unfold header_with_copc. rewrite EH. reflexivity.
  - unfold seen_exts. cbn [xs_items]. fold c in EX. destruct (xs_ext _); [exact EX|]. apply Forall_map. eapply Forall_impl; [|exact EX]. intros e (A & B). split; [exact A|reflexivity].
Qed.
End Opened.
