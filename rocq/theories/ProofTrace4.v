(* ProofTrace4.v - COPC files whose header area was only partly written *)
From Coq Require Import Permutation.
From Verif Require Import Base BaseFacts ModelFloat ModelKey ModelGeom ModelEntry ModelPoint ModelPoints ModelHeader ModelVlr ModelExtents ModelConfig
  ModelStream ModelWriter ModelReader ModelLazReader ModelTrace SpecKey SpecPoint SpecConfig SpecHeader SpecWriter SpecHier SpecFile SpecOpen SpecCrash ProofStream ProofHeader ProofConfig
  ProofWriter ProofPages ProofClose ProofClose2 ProofSession ProofFile ProofOpen2 ProofOpen3 ProofTrace ProofTrace2 ProofTrace3.

(* the header fields that from_lazperf checks, by position *)
Lemma header_at f l : read_header14 f = Ok l -> l_enc l = num_at 6 2 f /\ l_guid l = bytes_at 8 16 f /\ l_major l = num_at 24 1 f /\ l_minor l = num_at 25 1 f /\
  l_sys l = bytes_at 26 32 f /\ l_gen l = bytes_at 58 32 f /\ l_fmt l = Z.land (num_at 104 1 f) 63 /\ Z.land (num_at 104 1 f) 128 <> 0.
Proof.
  unfold read_header14. destruct (dec_header14 f) as [((mg, h), r)|] eqn:D; [|discriminate]. destruct (list_eq_dec Z.eq_dec mg LASF) as [->|]; cbn [negb]; [|discriminate].
  destruct (Z.eqb_spec (Z.land (l_fmt h) 128) 0) as [|B]; [discriminate|]. intros H. injection H as <-. cbn [l_enc l_guid l_major l_minor l_sys l_gen l_fmt]. unfold dec_header14 in D.
  assert (TK : forall n a x r0, 0 <= a -> take_bytes n (skipn (Z.to_nat a) f) = Some (x, r0) -> x = bytes_at a (Z.of_nat n) f /\ r0 = skipn (Z.to_nat (a + Z.of_nat n)) f) by (intros n a x r0 A Q; apply take_at in Q as (Q1 & Q & _); auto).
  assert (MN : forall n k a x r0, 0 <= a -> dec_many n (dec_u k) (skipn (Z.to_nat a) f) = Some (x, r0) -> r0 = skipn (Z.to_nat (a + Z.of_nat n * Z.of_nat k)) f).
  { induction n as [|n IH]; intros k a x r0 A Q; cbn [dec_many] in Q; [injection Q as _ <-; f_equal; f_equal; lia|]. destruct (dec_u k _) as [(y, b)|] eqn:E; [|discriminate]. apply dec_u_at in E as (_ & ->); [|exact A].
    destruct (dec_many n _ _) as [(ys, b')|] eqn:E2; [|discriminate]. injection Q as _ <-. apply IH in E2; [|lia]. rewrite E2. f_equal. f_equal. lia. }
  assert (FL : forall a x r0, 0 <= a -> dec_f64 (skipn (Z.to_nat a) f) = Some (x, r0) -> r0 = skipn (Z.to_nat (a + 8)) f).
  { intros a x r0 A Q. unfold dec_f64 in Q. destruct (dec_u 8 _) as [(y, b)|] eqn:E; [|discriminate]. apply dec_u_at in E as (_ & ->); [|exact A]. injection Q as _ <-. reflexivity. }
  assert (VC : forall a x r0, 0 <= a -> dec_vec (skipn (Z.to_nat a) f) = Some (x, r0) -> r0 = skipn (Z.to_nat (a + 24)) f).
  { intros a x r0 A Q. unfold dec_vec in Q. destruct (dec_f64 _) as [(y, b)|] eqn:E; [|discriminate]. apply FL in E as ->; [|exact A].
    destruct (dec_f64 _) as [(y2, b)|] eqn:E; [|discriminate]. apply FL in E as ->; [|lia]. destruct (dec_f64 _) as [(y3, b)|] eqn:E; [|discriminate]. apply FL in E as ->; [|lia]. injection Q as _ <-. f_equal. f_equal. lia. }
  change f with (skipn (Z.to_nat 0) f) in D at 1.
  destruct (take_bytes 4 _) as [(mg, b)|] eqn:E0; [|discriminate]. pose proof (take_at 4 0 f _ _ ltac:(lia) E0) as (M0 & _). apply TK in E0 as (_ & ->); [|lia].
  Ltac step2 TK MN FL VC D :=
    match type of D with
    | (match take_bytes ?n ?x with _ => _ end) = _ => let E := fresh "E" in destruct (take_bytes n x) as [(?, ?)|] eqn:E; [|discriminate D]; apply TK in E as (? & ?); [|lia]; subst
    | (match dec_u ?n ?x with _ => _ end) = _ => let E := fresh "E" in destruct (dec_u n x) as [(?, ?)|] eqn:E; [|discriminate D]; apply dec_u_at in E as (? & ?); [|lia]; subst
    | (match dec_many ?n ?k ?x with _ => _ end) = _ => let E := fresh "E" in destruct (dec_many n k x) as [(?, ?)|] eqn:E; [|discriminate D]; apply MN in E; [|lia]; subst
    | (match dec_vec ?x with _ => _ end) = _ => let E := fresh "E" in destruct (dec_vec x) as [(?, ?)|] eqn:E; [|discriminate D]; apply VC in E; [|lia]; subst
    | (match dec_f64 ?x with _ => _ end) = _ => let E := fresh "E" in destruct (dec_f64 x) as [(?, ?)|] eqn:E; [|discriminate D]; apply FL in E; [|lia]; subst
    end.
  repeat step2 TK MN FL VC D. apply (f_equal (fun o => match o with Some (x, y, _) => Some (x, y) | None => None end)) in D. injection D as M9 <-. cbn [l_enc l_guid l_major l_minor l_sys l_gen l_fmt] in *.
  repeat (split; [f_equal; lia|]). exact B.
Qed.

(* ---- a file with a blanked part ---- *)
Lemma blanked_length p q f : 0 <= p <= q -> q <= Z.of_nat (length f) -> length (blanked p q f) = length f.
Proof. intros P Q. unfold blanked, bytes_at. rewrite !app_length, firstn_length, !skipn_length, zeros_length. cbn [Z.to_nat]. lia. Qed.
Lemma blanked_before a n p q f : 0 <= a -> 0 <= n -> a + n <= p -> p <= q -> q <= Z.of_nat (length f) -> bytes_at a n (blanked p q f) = bytes_at a n f.
Proof.
  intros A N P Q L. unfold blanked. rewrite bytes_at_pre; [|exact A|exact N|unfold bytes_at; rewrite firstn_length, skipn_length; cbn [Z.to_nat]; lia].
  unfold bytes_at. cbn [Z.to_nat skipn]. rewrite skipn_firstn_comm, firstn_firstn. f_equal. lia.
Qed.
Lemma zeros_skip n m : skipn n (zeros m) = zeros (m - n).
Proof. revert m. induction n as [|n IH]; intros m; [now rewrite Nat.sub_0_r|]. destruct m as [|m]; [reflexivity|]. apply IH. Qed.
Lemma blanked_gap a n p q f : 0 <= n -> 0 <= p <= a -> a + n <= q -> q <= Z.of_nat (length f) -> bytes_at a n (blanked p q f) = zeros (Z.to_nat n).
Proof.
  intros N A P L. unfold blanked.
  assert (LP : length (bytes_at 0 p f) = Z.to_nat p) by (unfold bytes_at; rewrite firstn_length, skipn_length; cbn [Z.to_nat]; lia).
  unfold bytes_at at 1. rewrite skipn_app, (skipn_all2 (bytes_at 0 p f)) by lia. cbn [app]. rewrite skipn_app, zeros_skip, firstn_app, zeros_first. rewrite !zeros_length, LP.
  replace (Z.to_nat n - _)%nat with 0%nat by lia. rewrite firstn_O, app_nil_r. f_equal. lia.
Qed.
Lemma blanked_after p q f : 0 <= p <= q -> q <= Z.of_nat (length f) -> skipn (Z.to_nat q) (blanked p q f) = skipn (Z.to_nat q) f.
Proof. intros P L. unfold blanked. rewrite app_assoc. apply skip_app. unfold bytes_at. rewrite app_length, firstn_length, skipn_length, zeros_length. cbn [Z.to_nat]. lia. Qed.
Lemma le_dec_zeros n : le_dec (zeros n) = 0.
Proof. induction n as [|n IH]; [reflexivity|]. change (zeros (S n)) with (0 :: zeros n). cbn [le_dec]. rewrite IH. reflexivity. Qed.
Lemma num_gap a n p q f : 0 <= n -> 0 <= p <= a -> a + n <= q -> q <= Z.of_nat (length f) -> num_at a n (blanked p q f) = 0.
Proof. intros. unfold num_at. rewrite blanked_gap by assumption. apply le_dec_zeros. Qed.
Lemma num_before a n p q f : 0 <= a -> 0 <= n -> a + n <= p -> p <= q -> q <= Z.of_nat (length f) -> num_at a n (blanked p q f) = num_at a n f.
Proof. intros. unfold num_at. now rewrite blanked_before. Qed.

(* without the byte that says the points are compressed, lazperf refuses the file *)
Lemma few_bytes p q f : 0 <= p <= 104 -> 375 < q <= Z.of_nat (length f) -> rejected (blanked p q f).
Proof.
  intros P Q. assert (E : read_header14 (blanked p q f) = Throw).
  { destruct (read_header14_defined (blanked p q f)) as [(l & E)|E]; [|exact E]. apply header_at in E as (_ & _ & _ & _ & _ & _ & _ & B). rewrite num_gap in B by lia. destruct B. reflexivity. }
  split; unfold open_reader, open_laz_reader, init_reader; rewrite E; reflexivity.
Qed.

(* ---- the LAS header complete in the fields that are checked, the COPC info VLR missing ---- *)
Lemma le_dec_app a b : le_dec (a ++ b) = le_dec a + 2 ^ (8 * Z.of_nat (length a)) * le_dec b.
Proof.
  induction a as [|x a IH]; [cbn [app le_dec length]; change (2 ^ (8 * Z.of_nat 0)) with 1; lia|]. cbn [app le_dec length]. rewrite IH.
  replace (8 * Z.of_nat (S (length a))) with (8 + 8 * Z.of_nat (length a)) by lia. rewrite Z.pow_add_r by lia. change (2 ^ 8) with 256. ring.
Qed.
Lemma evcnt_bytes l r : wf_h14 l -> exists A B, enc_header14 l ++ r = A ++ enc_u32 (l_evcnt l) ++ B /\ length A = 243%nat.
Proof.
  intros (_ & _ & G & _ & _ & S & N & _ & _ & _ & PO & VC & _ & _ & PC & P5 & _ & _ & EO & EC & P14c & P14 & _).
  exists (LASF ++ enc_u16 (l_src l) ++ enc_u16 (l_enc l) ++ l_guid l ++ enc_u8 (l_major l) ++ enc_u8 (l_minor l) ++
    l_sys l ++ l_gen l ++ enc_u16 (l_day l) ++ enc_u16 (l_year l) ++ enc_u16 (l_hsize l) ++ enc_u32 (l_poff l) ++ enc_u32 (l_vlrs l) ++ enc_u8 (l_fmt l) ++ enc_u16 (l_reclen l) ++ enc_u32 (l_pcount l) ++
    flat_map enc_u32 (l_pbr5 l) ++ enc_vec (l_scale l) ++ enc_vec (l_offset l) ++ enc_minmax (l_max l) (l_min l) ++ enc_u64 (l_wave l) ++ enc_u64 (l_evoff l)),
    (enc_u64 (l_pc14 l) ++ flat_map enc_u64 (l_pbr14 l) ++ r).
  split; [unfold enc_header14; rewrite <- !app_assoc; reflexivity|]. unfold enc_u8, enc_u16, enc_u32, enc_u64. rewrite !app_length, !le_enc_length, !enc_vec_length, enc_minmax_length, G, S, N, (flat_map_length_const _ 4), P5 by (intros; apply le_enc_length). reflexivity.
Qed.
Lemma partial_number a p q f : wf_bytes (bytes_at a 4 f) -> 0 <= a -> a <= p -> p <= a + 4 -> a + 4 <= q -> q <= Z.of_nat (length f) -> 0 <= num_at a 4 (blanked p q f) <= num_at a 4 f.
Proof.
  intros W A P P2 Q L. set (k := Z.to_nat (p - a)).
  assert (E : bytes_at a 4 (blanked p q f) = firstn k (bytes_at a 4 f) ++ zeros (4 - k)).
  { assert (S1 : forall g, bytes_at a 4 g = bytes_at a (p - a) g ++ bytes_at p (4 - (p - a)) g).
    { intros g. unfold bytes_at. replace (skipn (Z.to_nat p) g) with (skipn k (skipn (Z.to_nat a) g)) by (rewrite skipn_add; f_equal; unfold k; lia). set (g' := skipn (Z.to_nat a) g). fold k.
      rewrite <- (firstn_skipn k (firstn (Z.to_nat 4) g')). rewrite firstn_firstn, skipn_firstn_comm. f_equal; f_equal; unfold k; lia. }
    rewrite S1, blanked_before by lia. rewrite blanked_gap by lia. f_equal; [|f_equal; unfold k; lia]. unfold bytes_at. rewrite firstn_firstn. f_equal. unfold k. lia. }
  unfold num_at. rewrite E. set (b := bytes_at a 4 f) in *.
  assert (WK : wf_bytes (firstn k b) /\ wf_bytes (skipn k b)).
  { unfold wf_bytes in *. rewrite Forall_forall in W. split; apply Forall_forall; intros y I; apply W; [eapply firstn_in; eauto|eapply skipn_in; eauto]. }
  destruct WK as (W1 & W2). pose proof (le_dec_bound _ W1). pose proof (le_dec_bound _ W2). rewrite <- (firstn_skipn k b) at 3. rewrite !le_dec_app, le_dec_zeros.
  pose proof (Z.pow_pos_nonneg 2 (8 * Z.of_nat (length (firstn k b)))) as PP. nia.
Qed.
Lemma dec_vlr_total b : (54 <= length b)%nat -> exists v r, dec_vlr_header b = Some (v, r).
Proof.
  intros L. assert (TK : forall n x, (n <= length x)%nat -> take_bytes n x = Some (firstn n x, skipn n x)) by (intros n x Hn; unfold take_bytes; now destruct (Nat.leb_spec n (length x)); [|lia]).
  unfold dec_vlr_header, dec_u. rewrite TK by lia. rewrite TK by (rewrite !skipn_length; lia). rewrite TK by (rewrite !skipn_length; lia). rewrite TK by (rewrite !skipn_length; lia). rewrite TK by (rewrite !skipn_length; lia). eauto.
Qed.
Lemma from_same l1 l2 h : from_lazperf l1 = Ok h -> l_enc l2 = l_enc l1 -> l_guid l2 = l_guid l1 -> l_major l2 = l_major l1 -> l_minor l2 = l_minor l1 -> l_sys l2 = l_sys l1 -> l_gen l2 = l_gen l1 ->
  l_hsize l2 = l_hsize l1 -> l_fmt l2 = l_fmt l1 -> exists h', from_lazperf l2 = Ok h'.
Proof.
  intros H E1 E2 E3 E4 E5 E6 E7 E8. unfold from_lazperf in *. rewrite E1, E2, E3, E4, E5, E6, E7, E8.
  repeat match type of H with bind ?x _ = Ok _ => destruct x; [cbn [bind] in *|discriminate H..] end. eauto.
Qed.
Lemma fetch_zero m x user id : id <> 0 -> (forall q v, In (q, v) m -> v_rec v = 0) -> fetch_vlr (m ++ x) user id = fetch_vlr x user id.
Proof.
  intros N. induction m as [|(q, v) m IH]; intros H; [reflexivity|]. cbn [app fetch_vlr]. rewrite (H q v) by now left. replace (0 =? id) with false by lia. rewrite andb_false_r. apply IH. intros q' v' I. apply (H q'). now right.
Qed.
Lemma recs_long rs : 54 * Z.of_nat (length rs) <= Z.of_nat (length (recs_bytes false rs)).
Proof. induction rs as [|x rs IH]; [cbn; lia|]. rewrite recs_cons, app_length. pose proof (rec_bytes_length false x) as R. cbn [rec_head length] in *. lia. Qed.
Section Partial.
Variables (cd : codec) (od : orders) (w : writer) (cs : list (bytes * Z)) (PG : kmap wpage) (ws : list page_info) (l : header14) (w' : writer).
Hypotheses (RO : reorders od) (C : closed cd od w cs PG ws l w') (LEN : Z.of_nat (length (file w')) < 2 ^ 64).
Hypotheses (EB : (length (c_ebs (w_cfg w')) <= 341)%nat) (NP : Z.of_nat (length (w_pages w)) < 2 ^ 32 - 1) (ND : NoDup (map fst (w_pages w))).
Hypotheses (ID1 : id_string 16 (h_guid (c_hdr (w_cfg w')))) (ID2 : id_string 32 (h_sys (c_hdr (w_cfg w')))) (ID3 : id_string 32 (h_gen (c_hdr (w_cfg w')))).
Hypotheses (WK : Z.of_nat (length (c_wkt (w_cfg w'))) < 2 ^ 31).
Let c := w_cfg w'.
Let F := file w'.
Let rs := vlr_recs c.
Let evs := evlr_recs od ws (c_wkt c).
Let ev := ev_start cd (w_cfg w) cs.
Let ds := data_start (w_cfg w).
Variable p : Z.
Hypothesis P : 105 <= p <= 393.
Let f := blanked p ds F.

Lemma pa_ds : 375 + 54 * Z.of_nat (length rs) <= ds /\ ds <= Z.of_nat (length F) /\ ds <= ev /\ 375 + 54 <= ds.
Proof.
  pose proof (head_length _ _ _ _ _ _ _ _ C) as HL. fold ds in HL. pose proof (recs_long rs) as RL.
  assert (VL : Z.of_nat (length (vlr_part (w_cfg w'))) = Z.of_nat (length (recs_bytes false rs))) by (unfold rs, c; now rewrite vlr_part_recs).
  unfold head_area in HL. rewrite !app_length, (cl_hlen _ _ _ _ _ _ _ _ C) in HL.
  assert (EVL : ds <= ev) by (unfold ev; rewrite (ev_start_pos _ _ _ _ _ _ _ _ C), app_length, Nat2Z.inj_add, (head_length _ _ _ _ _ _ _ _ C); fold ds; lia).
  assert (FL : ds <= Z.of_nat (length F)) by (unfold F; rewrite (file_split _ _ _ _ _ _ _ _ C), app_length, Nat2Z.inj_add, (head_length _ _ _ _ _ _ _ _ C); fold ds; lia).
  assert (R1 : (1 <= length rs)%nat) by (unfold rs, vlr_recs; rewrite ?app_length; cbn [length]; lia).
  lia.
Qed.
Lemma pa_read_h : read_header14 F = Ok (h14_masked l).
Proof. apply (op_read_h _ _ _ _ _ _ _ _ C LEN EB NP ND). Qed.
Lemma pa_header l' : read_header14 f = Ok l' -> (exists h, from_lazperf l' = Ok h) /\ l_hsize l' = 375 /\ l_vlrs l' = Z.of_nat (length rs) /\
  (l_evcnt l' = 0 \/ l_evoff l' = ev /\ 0 <= l_evcnt l' <= Z.of_nat (length evs)).
Proof.
  intros H. destruct pa_ds as (D1 & D2 & D3 & D4). pose proof (header_at _ _ H) as (A1 & A2 & A3 & A4 & A5 & A6 & A7 & _). pose proof (header_counts _ _ H) as (B1 & B2 & B3 & B4 & _).
  pose proof (header_at _ _ pa_read_h) as (G1 & G2 & G3 & G4 & G5 & G6 & G7 & _). pose proof (header_counts _ _ pa_read_h) as (K1 & K2 & K3 & K4 & _).
  destruct (op_header _ _ _ _ _ _ _ _ C LEN EB NP ND ID1 ID2 ID3) as (h & HF & _).
  destruct (op_fields _ _ _ _ _ _ _ _ C LEN EB NP ND) as (E1 & E2 & E3 & E4 & _). fold c rs in E1. fold c evs in E2. fold ev in E3.
  unfold las_header_size, las_vlr_count, las_evlr_offset, las_evlr_count in *. unfold f in *. 
  rewrite num_before in A1, A3, A4, A7, B1, B2 by lia. rewrite blanked_before in A2, A5, A6 by lia.
  split; [|split; [|split]].
  - apply (from_same _ l' _ HF); congruence.
  - rewrite B1, <- K1. exact E4.
  - rewrite B2, <- K2. exact E1.
  - destruct (Z.le_gt_cases p 243) as [Q|Q]; [left; rewrite B4; apply num_gap; lia|]. right. rewrite num_before in B3 by lia. split; [rewrite B3, <- K3; exact E3|].
    assert (N4 : num_at 243 4 F = Z.of_nat (length evs)) by (rewrite <- K4; exact E2).
    destruct (Z.le_gt_cases p 247) as [Q2|Q2]; [|rewrite num_before in B4 by lia; lia]. rewrite B4, <- N4.
    apply partial_number; try lia. destruct (op_f1 _ _ _ _ _ _ _ _ C) as (post & EF). destruct (evcnt_bytes l (recs_bytes false (vlr_recs (w_cfg w')) ++ post) (wf_l _ _ _ _ _ _ _ _ C LEN)) as (A & B & EAB & LA).
    unfold F. rewrite EF, EAB, bytes_at_mid; [apply le_enc_wf|rewrite LA; reflexivity|unfold enc_u32; now rewrite le_enc_length].
Qed.
Lemma pa_walk : forall n pos m, 375 <= pos -> pos + 54 * Z.of_nat n <= ds -> exists m2, read_vlr_headers dec_vlr_header 54 n pos f m = Ok m2 /\
  forall q v, In (q, v) m2 -> In (q, v) m \/ v_rec v = 0 /\ q < ds.
Proof.
  destruct pa_ds as (D1 & D2 & D3 & D4). assert (LF : length f = length F) by (unfold f; apply blanked_length; lia).
  induction n as [|n IH]; intros pos m P1 P2; [exists m; split; [reflexivity|auto]|]. cbn [read_vlr_headers].
  replace ((pos <? 0) || (Z.of_nat (length f) <? pos)) with false by lia.
  destruct (dec_vlr_total (skipn (Z.to_nat pos) f)) as (v & r & E); [rewrite skipn_length; lia|]. rewrite E.
  destruct (dec_at false pos f v r ltac:(lia) E) as (_ & V1 & V2 & _). cbn [lenw] in V2. unfold f in V1, V2. rewrite num_gap in V1, V2 by lia. rewrite V2.
  destruct (IH (pos + 54 + 0) (vins pos v m)) as (m2 & R & Q); [lia|lia|]. exists m2. split; [exact R|]. intros q u I. destruct (Q q u I) as [J|J]; [|now right]. apply vins_in in J as [(-> & ->)|J]; [right; split; [exact V1|lia]|now left].
Qed.
Lemma pa_parts : exists pre, f = pre ++ recs_bytes true evs ++ [] /\ ev = Z.of_nat (length pre).
Proof.
  destruct pa_ds as (D1 & D2 & D3 & D4). destruct (op_f2 _ _ _ _ _ _ _ _ C) as (pre & E & EV). fold F in E. fold ev in EV. fold c evs in E.
  exists (firstn (length pre) f). assert (LF : length f = length F) by (unfold f; apply blanked_length; lia).
  split; [|rewrite firstn_length, LF, E, app_length; lia].
  rewrite <- (firstn_skipn (length pre) f) at 1. f_equal. replace (length pre) with (Z.to_nat ds + (length pre - Z.to_nat ds))%nat by lia. rewrite <- skipn_add. unfold f. rewrite blanked_after by lia. rewrite skipn_add.
  replace (Z.to_nat ds + (length pre - Z.to_nat ds))%nat with (length pre) by lia. rewrite E. now apply skip_app.
Qed.
Lemma partial_rejected isf : open_reader isf f = Throw.
Proof.
  destruct pa_ds as (D1 & D2 & D3 & D4). unfold open_reader, init_reader. destruct (read_header14_defined f) as [(l' & RH)|RH]; rewrite RH; [|reflexivity]. cbn [bind].
  destruct (pa_header l' RH) as ((h & HF) & H1 & H2 & H3). rewrite HF. cbn [bind]. unfold read_all_vlrs. rewrite H1, H2, Nat2Z.id. change VLR_HEADER_SIZE with 54. change EVLR_HEADER_SIZE with 60.
  destruct (pa_walk (length rs) 375 []) as (m2 & W & MQ); [lia|lia|]. rewrite W. cbn [bind].
  assert (MZ : forall q v, In (q, v) m2 -> v_rec v = 0) by (intros q v I; destruct (MQ q v I) as [[]|(E & _)]; exact E).
  assert (MB : Forall (fun x => fst x < ev) m2) by (apply Forall_forall; intros (q, v) I; destruct (MQ q v I) as [[]|(_ & E)]; cbn [fst]; lia).
  set (n := Z.to_nat (l_evcnt l')). destruct pa_parts as (pre & EF & EV).
  destruct (op_recs _ _ _ _ _ _ _ _ RO C LEN EB) as (_ & OK). fold c evs in OK.
  assert (SPL : f = pre ++ recs_bytes true (firstn n evs) ++ recs_bytes true (skipn n evs)) by (rewrite EF at 1; rewrite app_nil_r, <- recs_app, firstn_skipn; reflexivity).
  assert (WE : exists m3, read_vlr_headers dec_evlr_header 60 n (l_evoff l') f m2 = Ok m3 /\ m3 = m2 ++ listed true ev (firstn n evs)).
  { destruct H3 as [Z0|(EO & EC)]; [exists m2; unfold n; rewrite Z0; cbn [Z.to_nat read_vlr_headers firstn listed]; now rewrite app_nil_r|].
    eexists. split; [|reflexivity]. rewrite EO. pose proof (read_recs true (firstn n evs) pre (recs_bytes true (skipn n evs)) ev m2 EV) as R. rewrite <- SPL in R. cbn [dec_of rec_head] in R.
    rewrite firstn_length_le in R by lia. apply R; [|apply Forall_forall; intros x I; pose proof (evlr_recs_ids od ws (c_wkt c)) as IDS; rewrite Forall_forall in IDS; apply IDS; eapply firstn_in; eauto|exact MB].
    apply Forall_forall. intros x I. rewrite Forall_forall in OK. apply OK. eapply firstn_in; eauto. }
  destruct WE as (m3 & -> & EM). cbn [bind].
  assert (MISS : forall user id, id <> 0 -> misses user id (firstn n evs) -> fetch_vlr m3 user id = 0).
  { intros user id N M. rewrite EM, fetch_zero by assumption. rewrite <- (app_nil_r (listed true ev _)), fetch_miss by exact M. reflexivity. }
  assert (SUB : forall user id, misses user id evs -> misses user id (firstn n evs)) by (intros user id M; apply Forall_forall; intros x I; unfold misses in M; rewrite Forall_forall in M; apply M; eapply firstn_in; eauto).
  assert (EVM : forall user id, id <> 1000 -> id <> 2112 -> misses user id evs) by (intros user id N1 N2; unfold evs, c; eapply ev_miss; eassumption).
  assert (RE : read_ebs m3 f = Ok []) by (unfold read_ebs; rewrite MISS; [reflexivity|discriminate|apply SUB, EVM; discriminate]).
  assert (RW : exists x, read_wkt m3 f = Ok x).
  { unfold read_wkt. assert (M1 : misses s_las_proj 2112 (map (page_rec od) ws)) by (apply pages_miss; reflexivity).
    assert (EE : evs = map (page_rec od) ws \/ exists x, x = (wkt_evlr_header (c_wkt c), c_wkt c) /\ evs = map (page_rec od) ws ++ x :: []).
    { unfold evs, evlr_recs. destruct (c_wkt c); [left; apply app_nil_r|right; eauto]. }
    destruct EE as [EE|(x & EX & EE)]; [rewrite MISS; [exists []; reflexivity|discriminate|apply SUB; rewrite EE; exact M1]|].
    destruct (Nat.le_gt_cases n (length ws)) as [Q|Q].
    { rewrite MISS; [exists []; reflexivity|discriminate|]. rewrite EE, firstn_app, map_length. replace (n - length ws)%nat with 0%nat by lia. rewrite firstn_O, app_nil_r. apply Forall_forall. intros y I. unfold misses in M1. rewrite Forall_forall in M1. apply M1. eapply firstn_in; eauto. }
    assert (FN : firstn n evs = evs) by (apply firstn_all2; rewrite EE, app_length, map_length; cbn [length]; lia). rewrite FN, EE in EM.
    assert (OX : rec_ok true x) by (rewrite Forall_forall in OK; apply OK; rewrite EE; apply in_elt).
    pose proof (find_rec true (map (page_rec od) ws) x [] pre [] ev m2 [] s_las_proj 2112 EV) as FR. rewrite (app_nil_r (listed true ev _)) in FR. rewrite <- EM in FR. rewrite <- EE, <- EF in FR. cbv zeta in FR.
    assert (L31 : Z.of_nat (length (snd x)) < 2 ^ 31) by (rewrite EX; exact WK).
    destruct FR as (_ & B & L & t & T); [lia|exact MB|intros; apply fetch_zero; [discriminate|exact MZ]|exact M1|rewrite EX; reflexivity|exact OX|exact L31|].
    rewrite B, L. cbn [rec_head] in T. change EVLR_HEADER_SIZE with 60. rewrite T. unfold dec_wkt. replace (_ <? 0) with false by lia. rewrite Nat2Z.id, take_app by reflexivity. eauto. }
  destruct RW as (x & ->). cbn [bind]. rewrite RE. cbn [bind br_vlrs br_cfg]. rewrite MISS; [reflexivity|discriminate|]. apply SUB, EVM; discriminate.
Qed.
End Partial.
