(* ProofOpen4.v - opening a file is defined when its records lie in it *)
From Verif Require Import Base BaseFacts ModelFloat ModelKey ModelGeom ModelEntry ModelPoint ModelPoints ModelHeader ModelVlr ModelExtents ModelConfig
  ModelStream ModelWriter ModelReader SpecWriter SpecFile SpecOpen SpecUntrusted ProofStream ProofFile ProofOpen2 ProofOpen3.
Open Scope Z_scope.

(* ---- decoders that need no more than k bytes ---- *)
Definition takes {A} (k : nat) (d : bytes -> option (A * bytes)) : Prop := forall b, (k <= length b)%nat -> exists v r, d b = Some (v, r) /\ length r = (length b - k)%nat.
Lemma takes_bytes n : takes n (take_bytes n).
Proof. intros b L. unfold take_bytes. replace (n <=? length b)%nat with true by (symmetry; now apply Nat.leb_le). do 2 eexists. split; [reflexivity|]. now rewrite skipn_length. Qed.
Lemma takes_u n : takes n (dec_u n).
Proof. intros b L. destruct (takes_bytes n b L) as (v & r & E & R). unfold dec_u. rewrite E. eauto. Qed.
Lemma takes_f64 : takes 8 dec_f64.
Proof. intros b L. destruct (takes_u 8 b L) as (v & r & E & R). unfold dec_f64. rewrite E. eauto. Qed.
Lemma takes_many {A} k (d : bytes -> option (A * bytes)) : takes k d -> forall n, takes (n * k) (dec_many n d).
Proof.
  intros T. induction n as [|n IH]; intros b L; cbn [dec_many]; [do 2 eexists; split; [reflexivity|lia]|]. destruct (T b) as (v & r & E & R); [lia|]. rewrite E. destruct (IH r) as (vs & r' & E' & R'); [lia|]. rewrite E'.
  do 2 eexists. split; [reflexivity|]. lia.
Qed.
Ltac eat := match goal with
  | |- context [match dec_u ?n ?b with _ => _ end] => let E := fresh "E" in let r := fresh "r" in destruct (takes_u n b) as (? & r & E & ?); [lia|]; rewrite E
  | |- context [match take_bytes ?n ?b with _ => _ end] => let E := fresh "E" in let r := fresh "r" in destruct (takes_bytes n b) as (? & r & E & ?); [lia|]; rewrite E
  | |- context [match dec_f64 ?b with _ => _ end] => let E := fresh "E" in let r := fresh "r" in destruct (takes_f64 b) as (? & r & E & ?); [lia|]; rewrite E
  end.
Lemma takes_head e : takes (Z.to_nat (rec_head e)) (dec_of e).
Proof.
  intros b L. destruct e; [change (60 <= length b)%nat in L|change (54 <= length b)%nat in L]; unfold dec_of; [unfold dec_evlr_header|unfold dec_vlr_header]; repeat eat; do 2 eexists; (split; [reflexivity|]); [change (Z.to_nat (rec_head true)) with 60%nat|change (Z.to_nat (rec_head false)) with 54%nat]; lia.
Qed.
Lemma takes_eb : takes 192 dec_eb.
Proof. intros b L. unfold dec_eb. repeat eat. do 2 eexists. split; [reflexivity|]. lia. Qed.
Lemma takes_pair : takes 16 dec_pair.
Proof. intros b L. unfold dec_pair. repeat eat. do 2 eexists. split; [reflexivity|]. lia. Qed.
Lemma takes_info : takes 160 dec_info.
Proof. intros b L. unfold dec_info. repeat eat. do 2 eexists. split; [reflexivity|]. lia. Qed.
Lemma to_s_le x : 0 <= x -> to_s 32 x <= x.
Proof.
  intros X. destruct (Z.lt_ge_cases x (2 ^ 31)) as [L|L]; [rewrite to_s_id; [lia|lia|change (2 ^ (32 - 1)) with (2 ^ 31); lia]|].
  pose proof (to_s_range 32 x ltac:(lia)) as R. change (2 ^ (32 - 1)) with (2 ^ 31) in R. lia.
Qed.
Lemma takes_ebs n b : n <= Z.of_nat (length b) -> exists v r, dec_eb_vlr n b = Some (v, r).
Proof.
  intros L. unfold dec_eb_vlr. destruct (takes_many 192 dec_eb takes_eb (Z.to_nat (n / 192)) b) as (v & r & E & _); [|eauto]. pose proof (Z.mul_div_le n 192 ltac:(lia)). destruct (Z.lt_ge_cases n 0) as [N|N]; [|pose proof (Z.div_pos n 192 N ltac:(lia)); lia].
  assert (n / 192 < 0) by (apply Z.div_lt_upper_bound; lia). replace (Z.to_nat (n / 192)) with 0%nat by lia. lia.
Qed.
Lemma takes_pairs n b : n <= Z.of_nat (length b) -> exists v r, dec_pairs n b = Some (v, r).
Proof.
  intros L. unfold dec_pairs. destruct (takes_many 16 dec_pair takes_pair (Z.to_nat (n / 16)) b) as (v & r & E & _); [|eauto]. pose proof (Z.mul_div_le n 16 ltac:(lia)). destruct (Z.lt_ge_cases n 0) as [N|N]; [|pose proof (Z.div_pos n 16 N ltac:(lia)); lia].
  assert (n / 16 < 0) by (apply Z.div_lt_upper_bound; lia). replace (Z.to_nat (n / 16)) with 0%nat by lia. lia.
Qed.
Lemma bind_defined {A B} (x : outcome A) (g : A -> outcome B) : x <> UB -> (forall a, x = Ok a -> g a <> UB) -> bind x g <> UB.
Proof. intros X G. destruct x as [a| |]; cbn [bind]; [now apply G|discriminate|contradiction]. Qed.

(* ---- the record headers ---- *)
Lemma headers_read e f : wf_bytes f -> forall n pos m, 0 <= pos ->
  (forall i, (i < n)%nat -> follow (rec_head e) (lenw e) i pos f + rec_head e + num_at (follow (rec_head e) (lenw e) i pos f + 20) (lenw e) f <= Z.of_nat (length f)) ->
  read_vlr_headers (dec_of e) (rec_head e) n pos f m <> UB.
Proof.
  intros W. assert (RH : 0 < rec_head e) by (destruct e; cbn; lia). assert (LW : 0 <= lenw e) by (destruct e; cbn; lia). induction n as [|n IH]; intros pos m P H; cbn [read_vlr_headers]; [discriminate|].
  pose proof (H O ltac:(lia)) as H0. cbn [follow] in H0. pose proof (num_range (pos + 20) (lenw e) f W LW) as NR.
  destruct (Z.ltb_spec pos 0); [lia|]. destruct (Z.ltb_spec (Z.of_nat (length f)) pos); [lia|]. cbn [orb].
  destruct (takes_head e (skipn (Z.to_nat pos) f)) as (v & r & D & _); [rewrite skipn_length; lia|]. rewrite D. destruct (dec_at _ _ _ _ _ P D) as (_ & _ & D3 & _). apply IH; [lia|].
  intros i L. rewrite D3. apply (H (S i)). lia.
Qed.

(* ---- the texts of the header ---- *)
Lemma header_texts f l : read_header14 f = Ok l -> l_guid l = bytes_at 8 16 f /\ l_sys l = bytes_at 26 32 f /\ l_gen l = bytes_at 58 32 f.
Proof.
  unfold read_header14. destruct (dec_header14 f) as [((mg, h), r)|] eqn:D; [|discriminate]. destruct (negb _); [discriminate|]. destruct (_ =? 0); [discriminate|]. intros H.
  assert (HG : l_guid l = l_guid h /\ l_sys l = l_sys h /\ l_gen l = l_gen h) by (injection H as <-; auto). clear H. destruct HG as (-> & -> & ->). unfold dec_header14 in D.
  change f with (skipn (Z.to_nat 0) f) in D at 1.
  destruct (take_bytes 4 _) as [(x0, b0)|] eqn:E; [|discriminate]. apply take_at in E as (_ & -> & _); [|lia].
  destruct (dec_u 2 _) as [(x1, b1)|] eqn:E; [|discriminate]. apply dec_u_at in E as (_ & ->); [|lia].
  destruct (dec_u 2 _) as [(x2, b2)|] eqn:E; [|discriminate]. apply dec_u_at in E as (_ & ->); [|lia].
  destruct (take_bytes 16 _) as [(x3, b3)|] eqn:E; [|discriminate]. apply take_at in E as (G & -> & _); [|lia].
  destruct (dec_u 1 _) as [(x4, b4)|] eqn:E; [|discriminate]. apply dec_u_at in E as (_ & ->); [|lia].
  destruct (dec_u 1 _) as [(x5, b5)|] eqn:E; [|discriminate]. apply dec_u_at in E as (_ & ->); [|lia].
  destruct (take_bytes 32 _) as [(x6, b6)|] eqn:E; [|discriminate]. apply take_at in E as (S1 & -> & _); [|lia].
  destruct (take_bytes 32 _) as [(x7, b7)|] eqn:E; [|discriminate]. apply take_at in E as (S2 & -> & _); [|lia].
  assert (T : l_guid h = x3 /\ l_sys h = x6 /\ l_gen h = x7).
  { clear - D. repeat match type of D with (match ?x with _ => _ end) = _ => destruct x as [(?, ?)|]; [|discriminate D] end. apply (f_equal (fun o => match o with Some (_, y, _) => Some y | None => None end)) in D. injection D as <-. auto. }
  destruct T as (-> & -> & ->). auto.
Qed.
Lemma cstr_defined x : In 0 x -> exists s, cstr x = Ok s.
Proof. intros H. unfold cstr. replace (existsb (Z.eqb 0) x) with true; [eauto|]. symmetry. apply existsb_exists. now exists 0. Qed.
Lemma from_lazperf_defined f l : texts_terminated f -> read_header14 f = Ok l -> from_lazperf l <> UB.
Proof.
  intros (A & B & C) R. destruct (header_texts f l R) as (G & S1 & S2). unfold from_lazperf. rewrite G, S1, S2.
  destruct (cstr_defined _ A) as (a & ->). destruct (cstr_defined _ B) as (b & ->). destruct (cstr_defined _ C) as (c & ->). cbn [bind]. unfold require. repeat (destruct (_ : bool); cbn [bind]; try discriminate).
Qed.

(* ---- the records ---- *)
Section Inside.
Variable f : bytes.
Hypotheses (W : wf_bytes f) (RI : records_inside f).
(* what is known of the directory that a reader builds *)
Definition directory (m : vlr_map) : Prop := sorted_at m /\
  (forall p v, In (p, v) m -> (exists i, Z.of_nat i < las_vlr_count f /\ p = vlr_pos f i /\ record_of f false p v) \/ (exists i, Z.of_nat i < las_evlr_count f /\ p = evlr_pos f i /\ record_of f true p v)).
Lemma vlrs_defined l : read_header14 f = Ok l -> read_all_vlrs l f <> UB.
Proof.
  intros R. destruct (header_counts f l R) as (C1 & C2 & C3 & C4 & C5). unfold read_all_vlrs. rewrite C1, C2, C3, C4. destruct RI as (RV & RE).
  pose proof (num_range 94 2 f W ltac:(lia)) as R1. pose proof (num_range 235 8 f W ltac:(lia)) as R2. apply bind_defined.
  - apply (headers_read false f W); [apply R1|]. intros i L. apply (RV i). lia.
  - intros m _. apply (headers_read true f W); [apply R2|]. intros i L. apply (RE i). lia.
Qed.
Lemma vlrs_directory l m : read_header14 f = Ok l -> read_all_vlrs l f = Ok m -> directory m.
Proof.
  intros R M. destruct (header_counts f l R) as (C1 & C2 & C3 & C4 & C5). unfold read_all_vlrs in M. apply bind_ok in M as (m1 & M1 & M2). rewrite C1, C2 in M1. rewrite C3, C4 in M2. assert (S0 : sorted_at []) by constructor.
  pose proof (num_range 94 2 f W ltac:(lia)) as R1. pose proof (num_range 235 8 f W ltac:(lia)) as R2.
  destruct (read_dir false f W _ _ _ _ (proj1 R1) S0 M1) as (A1 & A2 & A3 & A4). destruct (read_dir true f W _ _ _ _ (proj1 R2) A1 M2) as (B1 & B2 & B3 & B4).
  split; [exact B1|]. intros p v J. destruct (B3 p v J) as [Q|((i & Q & E) & Q2)].
  - left. destruct (A3 p v Q) as [[]|((i & Q' & E) & Q2)]. exists i. split; [lia|]. split; [exact E|exact Q2].
  - right. exists i. split; [lia|]. split; [exact E|exact Q2].
Qed.
Lemma record_length m p v : directory m -> In (p, v) m -> 0 <= p /\ 0 <= v_len v /\ p + 54 + v_len v <= Z.of_nat (length f).
Proof.
  intros (_ & D) I. destruct RI as (RV & RE). destruct (D p v I) as [(i & L & -> & (R1 & _ & _ & R2 & _))|(i & L & -> & (R1 & _ & _ & R2 & _))]; rewrite R2; cbn [lenw].
  - pose proof (num_range (vlr_pos f i + 20) 2 f W ltac:(lia)). specialize (RV i L). lia.
  - pose proof (num_range (evlr_pos f i + 20) 8 f W ltac:(lia)). specialize (RE i L). lia.
Qed.
(* a record that was found: its data, taken to follow 54 bytes of header *)
Lemma fetched m u id : directory m -> fetch_vlr m u id = 0 \/ exists v, In (fetch_vlr m u id, v) m /\ len_at (fetch_vlr m u id) m = to_s 32 (v_len v) /\ str_eqb (v_user v) u && (v_rec v =? id) = true /\
  len_at (fetch_vlr m u id) m <= Z.of_nat (length (skipn (Z.to_nat (fetch_vlr m u id + VLR_HEADER_SIZE)) f)).
Proof.
  intros D. destruct (fetch_cases m u id) as [(-> & _)|(p & v & I & H & ->)]; [now left|]. right. exists v. split; [exact I|].
  assert (LA : len_at p m = to_s 32 (v_len v)) by (unfold len_at; now rewrite (in_vget _ _ _ (proj1 D) I)). split; [exact LA|]. split; [exact H|]. rewrite LA.
  destruct (record_length m p v D I) as (P & N & L). pose proof (to_s_le _ N). rewrite skipn_length. unfold VLR_HEADER_SIZE. lia.
Qed.
Lemma ebs_defined m : directory m -> read_ebs m f <> UB.
Proof.
  intros D. unfold read_ebs. destruct (Z.eqb_spec (fetch_vlr m s_las_spec 4) 0); [discriminate|]. destruct (fetched m s_las_spec 4 D) as [?|(v & _ & _ & _ & L)]; [contradiction|].
  destruct (takes_ebs _ _ L) as (x & r & ->). discriminate.
Qed.
Lemma pairs_defined m u id : directory m -> fetch_vlr m u id <> 0 -> read_pairs (fetch_vlr m u id) m f <> UB.
Proof.
  intros D N. unfold read_pairs. destruct (fetched m u id D) as [?|(v & _ & _ & _ & L)]; [contradiction|]. destruct (takes_pairs _ _ L) as (x & r & ->). discriminate.
Qed.
Lemma wkt_defined m : wkt_vlr_followed f -> directory m -> read_wkt m f <> UB.
Proof.
  intros FO D. unfold read_wkt. destruct (Z.eqb_spec (fetch_vlr m s_las_proj 2112) 0); [discriminate|]. destruct (fetched m s_las_proj 2112 D) as [?|(v & I & LA & H & _)]; [contradiction|]. rewrite LA. set (p := fetch_vlr m s_las_proj 2112) in *. clearbody p.
  destruct (record_length m p v D I) as (P & N & _). pose proof (to_s_le _ N) as LE.
  assert (L : p + 60 + v_len v <= Z.of_nat (length f)).
  { destruct (proj2 D p v I) as [(i & Q & E & R)|(i & Q & E & R)]; pose proof R as (_ & _ & _ & R2 & _); rewrite R2; cbn [lenw].
    - apply (hit_wkt f _ _ _ R) in H. rewrite E in *. now apply FO.
    - rewrite E. now apply (proj2 RI). }
  unfold dec_wkt. destruct (Z.ltb_spec (to_s 32 (v_len v)) 0); [discriminate|]. destruct (takes_bytes (Z.to_nat (to_s 32 (v_len v))) (skipn (Z.to_nat (p + EVLR_HEADER_SIZE)) f)) as (x & r & -> & _); [|discriminate].
  rewrite skipn_length. unfold EVLR_HEADER_SIZE. lia.
Qed.
Lemma info_defined m : info_inside f -> read_info m f <> UB.
Proof.
  unfold info_inside. intros L. unfold read_info. destruct (_ =? 0); [discriminate|]. destruct (Z.eqb_spec (fetch_vlr m s_copc 1) INFO_VLR_OFFSET) as [->|]; cbn [negb]; [|discriminate].
  destruct (takes_info (skipn (Z.to_nat (INFO_VLR_OFFSET + VLR_HEADER_SIZE)) f)) as (x & r & -> & _); [|discriminate]. rewrite skipn_length. change (Z.to_nat (INFO_VLR_OFFSET + VLR_HEADER_SIZE)) with 429%nat. lia.
Qed.
End Inside.
Lemma mapM_defined {A B} (g : A -> outcome B) l : (forall a, g a <> UB) -> mapM g l <> UB.
Proof. intros G. induction l as [|a l IH]; cbn [mapM]; [discriminate|]. apply bind_defined; [apply G|]. intros b _. apply bind_defined; [exact IH|]. discriminate. Qed.
Lemma new_extent_defined a b c d : new_extent a b c d <> UB.
Proof. unfold new_extent. repeat (destruct (_ : bool); try discriminate). Qed.
Lemma num_extents_defined fmt n : num_extents fmt n <> UB.
Proof. unfold num_extents, base_dims. repeat (destruct (_ =? _); cbn [bind]; try discriminate). Qed.
Lemma copy_extents_defined x : copy_extents x <> UB.
Proof. unfold copy_extents. apply bind_defined; [|discriminate]. apply mapM_defined. intros a. unfold copy_extent. repeat (destruct (_ : bool); try discriminate). Qed.
Lemma extents_defined f m l ebs : wf_bytes f -> records_inside f -> directory f m -> read_extents l m ebs f <> UB.
Proof.
  intros W RI D. unfold read_extents. destruct (Z.eqb_spec (fetch_vlr m s_copc 10000) 0).
  - unfold new_extents. destruct (_ || _); [discriminate|]. apply bind_defined; [apply num_extents_defined|discriminate].
  - apply bind_defined; [now apply pairs_defined|]. intros v _. apply bind_defined.
    + unfold extents_of_vlr. destruct (_ || _); [discriminate|]. apply bind_defined; [apply num_extents_defined|]. intros k _. destruct (negb _); [discriminate|]. apply bind_defined; [|discriminate]. apply mapM_defined. intros a. apply new_extent_defined.
    + intros x _. destruct (Z.eqb_spec (fetch_vlr m s_rock 10001) 0); [discriminate|]. apply bind_defined; [now apply pairs_defined|]. intros v2 _. unfold set_extended. destruct (negb _); [discriminate|]. destruct (negb _); discriminate.
Qed.
Lemma init_defined f : wf_bytes f -> records_inside f -> wkt_vlr_followed f -> texts_terminated f -> init_reader f <> UB.
Proof.
  intros W RI FO T. unfold init_reader. destruct (read_header14 f) as [l| |] eqn:L; cbn [bind]; [|discriminate|exfalso; revert L; unfold read_header14; destruct (dec_header14 f) as [((mg, h), r)|]; [|discriminate]; destruct (negb _); [discriminate|]; destruct (_ =? 0); discriminate].
  apply bind_defined; [now apply (from_lazperf_defined f)|]. intros h _. apply bind_defined; [now apply vlrs_defined|]. intros m M. pose proof (vlrs_directory f W l m L M) as D.
  apply bind_defined; [now apply wkt_defined|]. intros w _. apply bind_defined; [now apply ebs_defined|]. discriminate.
Qed.
Lemma open_defined isf f : wf_bytes f -> records_inside f -> wkt_vlr_followed f -> texts_terminated f -> info_inside f -> open_reader isf f <> UB.
Proof.
  intros W RI FO T II. unfold open_reader. apply bind_defined; [now apply init_defined|]. intros b B.
  assert (D : directory f (br_vlrs b)).
  { unfold init_reader in B. apply bind_ok in B as (l & L & B). apply bind_ok in B as (h & _ & B). apply bind_ok in B as (m & M & B). apply bind_ok in B as (w & _ & B). apply bind_ok in B as (e & _ & B).
    injection B as <-. cbn [br_vlrs]. exact (vlrs_directory f W l m L M). }
  destruct (_ || _); [discriminate|]. apply bind_defined; [now apply info_defined|]. intros i _. apply bind_defined; [now apply extents_defined|]. intros x _.
  apply bind_defined; [|discriminate]. unfold config_of. apply bind_defined; [apply copy_extents_defined|discriminate].
Qed.
