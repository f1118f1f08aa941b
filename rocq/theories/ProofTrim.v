(* ProofTrim.v - trimming a file to a box *)
From Coq Require Import Permutation.
From Verif Require Import Base BaseFacts ModelFloat ModelKey ModelGeom ModelEntry ModelPoint ModelPoints ModelHeader ModelVlr ModelExtents ModelConfig
  ModelStream ModelWriter ModelReader ModelTrim SpecKey SpecPoint SpecPoints SpecConfig SpecWriter SpecHier SpecFile SpecReader SpecData SpecRound SpecCopy SpecOrder SpecTrim
  ProofFloat ProofScale ProofKey ProofPoint ProofPoints ProofPoints2 ProofStream ProofConfig ProofWriter ProofWriter2 ProofWriter4 ProofClose2 ProofSession ProofResults ProofReject ProofCount ProofData ProofData2 ProofReader4 ProofReader6 ProofRound ProofMp2 ProofMp3 ProofMp5 ProofCopy ProofOrder PropRound.
Open Scope Z_scope.

(* ---- a record is unpacked from its own bytes ---- *)
Definition local {A} (g : bytes -> outcome (A * bytes)) : Prop := forall b x r, g b = Ok (x, r) -> exists pre, b = pre ++ r /\ forall r', g (pre ++ r') = Ok (x, r').
Definition local_dec {A} (d : bytes -> option (A * bytes)) : Prop := forall b x r, d b = Some (x, r) -> exists pre, b = pre ++ r /\ forall r', d (pre ++ r') = Some (x, r').
Lemma local_take n : local_dec (take_bytes n).
Proof.
  intros b x r H. unfold take_bytes in *. destruct (Nat.leb_spec n (length b)) as [L|]; [|discriminate]. exists (firstn n b). pose proof (f_equal (fun o : option (bytes * bytes) => match o with Some a => snd a | None => [] end) H) as R. pose proof (f_equal (fun o : option (bytes * bytes) => match o with Some a => fst a | None => [] end) H) as F. cbv beta iota in R, F. cbn [fst snd] in R, F.
  split; [now rewrite <- R, firstn_skipn|]. intros r'. rewrite app_length, firstn_length. destruct (Nat.leb_spec n (Nat.min n (length b) + length r')); [|lia]. f_equal. f_equal.
  - rewrite firstn_app, firstn_firstn, Nat.min_id, firstn_length. replace (n - Nat.min n (length b))%nat with 0%nat by lia. cbn [firstn]. now rewrite app_nil_r.
  - rewrite skipn_app, firstn_length. replace (n - Nat.min n (length b))%nat with 0%nat by lia. rewrite skipn_all2 by (rewrite firstn_length; lia). reflexivity.
Qed.
Lemma local_map {A B} (d : bytes -> option (A * bytes)) (e : bytes -> option (B * bytes)) (f : A -> B) : (forall b, e b = match d b with Some (x, r) => Some (f x, r) | None => None end) -> local_dec d -> local_dec e.
Proof.
  intros E L b x r H. rewrite E in H. destruct (d b) as [(y, s)|] eqn:D; [|discriminate]. destruct (L _ _ _ D) as (pre & -> & Q). exists pre. assert (s = r /\ f y = x) as (-> & <-) by (split; congruence). split; [reflexivity|]. intros r'. now rewrite E, Q.
Qed.
Lemma local_u n : local_dec (dec_u n).
Proof. apply (local_map (take_bytes n) _ le_dec); [reflexivity|apply local_take]. Qed.
Lemma local_s n : local_dec (dec_s n).
Proof. apply (local_map (take_bytes n) _ (fun x => to_s (8 * Z.of_nat n) (le_dec x))); [reflexivity|apply local_take]. Qed.
Lemma local_f64 : local_dec dec_f64.
Proof. apply (local_map (dec_u 8) _ f64_of_bits); [reflexivity|apply local_u]. Qed.
Lemma local_rd {A B} (d : bytes -> option (A * bytes)) (k : A -> bytes -> outcome (B * bytes)) : local_dec d -> (forall v, local (k v)) -> local (fun b => rd (d b) k).
Proof.
  intros LD LK b x r H. unfold rd in H. destruct (d b) as [(v, s)|] eqn:D; [|discriminate]. destruct (LD _ _ _ D) as (p1 & -> & Q1). destruct (LK v _ _ _ H) as (p2 & -> & Q2). exists (p1 ++ p2). split; [now rewrite app_assoc|]. intros r'. unfold rd. now rewrite <- app_assoc, Q1, Q2.
Qed.
Lemma local_bind {A B} (g : bytes -> outcome (A * bytes)) (k : A -> bytes -> outcome (B * bytes)) : local g -> (forall v, local (k v)) -> local (fun b => let! (v, b) := g b in k v b).
Proof.
  intros LG LK b x r H. destruct (g b) as [(v, s)| |] eqn:D; cbn [bind] in H; try discriminate. destruct (LG _ _ _ D) as (p1 & -> & Q1). destruct (LK v _ _ _ H) as (p2 & -> & Q2). exists (p1 ++ p2). split; [now rewrite app_assoc|]. intros r'. now rewrite <- app_assoc, Q1; cbn [bind]; rewrite Q2.
Qed.
Lemma local_ok {A} (x : A) : local (fun b => Ok (x, b)).
Proof. intros b y r H. exists []. assert (x = y /\ b = r) as (-> & ->) by (split; congruence). split; reflexivity. Qed.
Lemma local_unpack fmt s o eb : local (fun b => point_unpack b fmt s o eb).
Proof.
  unfold point_unpack. destruct (new_point fmt eb) as [p| |]; cbn [bind]; [|intros b x r H; discriminate..].
  apply local_rd; [apply local_s|intros x]. apply local_rd; [apply local_s|intros y]. apply local_rd; [apply local_s|intros z]. apply local_rd; [apply local_u|intros it]. apply local_rd; [apply local_u|intros re]. apply local_rd; [apply local_u|intros fl]. apply local_rd; [apply local_u|intros cl]. apply local_rd; [apply local_u|intros us]. apply local_rd; [apply local_s|intros an]. apply local_rd; [apply local_u|intros sr]. apply local_rd; [apply local_f64|intros gp].
  cbv zeta. generalize (fill_common (apply_scale_i x (vx s) (vx o)) (apply_scale_i y (vy s) (vy o)) (apply_scale_i z (vz s) (vz o)) it re fl cl an us sr gp p). intros q.
  refine (local_bind (fun b => if p_has_rgb q then rd (dec_u 2 b) (fun r b => rd (dec_u 2 b) (fun g b => rd (dec_u 2 b) (fun bl b => Ok (fill_rgb r g bl q, b)))) else Ok (q, b))
    (fun p b => let! (p, b) := (if p_has_nir p then rd (dec_u 2 b) (fun n b => Ok (with_nir n p, b)) else Ok (p, b)) in rd (take_bytes (Z.to_nat eb) b) (fun ebs b => Ok (with_eb ebs p, b))) _ _).
  - destruct (p_has_rgb q); [|apply local_ok]. apply local_rd; [apply local_u|intros r1]. apply local_rd; [apply local_u|intros r2]. apply local_rd; [apply local_u|intros r3]. apply local_ok.
  - intros q'. refine (local_bind (fun b => if p_has_nir q' then rd (dec_u 2 b) (fun n b => Ok (with_nir n q', b)) else Ok (q', b)) (fun p b => rd (take_bytes (Z.to_nat eb) b) (fun ebs b => Ok (with_eb ebs p, b))) _ _).
    + destruct (p_has_nir q'); [apply local_rd; [apply local_u|intros r1; apply local_ok]|apply local_ok].
    + intros q2. apply local_rd; [apply local_take|intros e; apply local_ok].
Qed.
(* a point that is packed to a record from which it is unpacked again *)
Definition exact_point (h : las_header) (p : point) : Prop := wf_point p /\ p_fmt p = h_fmt h /\ p_reclen p = h_reclen h /\
  exists b, point_pack p (h_scale h) (h_offset h) = Ok b /\ forall rest, point_unpack (b ++ rest) (h_fmt h) (h_scale h) (h_offset h) (h_reclen h - las_base (h_fmt h)) = Ok (p, rest).
Lemma decoded_exact h data ps : plain_header h -> exact_region (h_scale h) (h_offset h) -> wf_bytes data -> decodes_to h data ps -> Forall (exact_point h) ps.
Proof.
  intros (F & R) EX W (_ & D). apply Forall_forall. intros p I. apply In_nth_error in I as (i & I). destruct (D i p I) as (rest & U).
  assert (WS : wf_bytes (skipn (i * Z.to_nat (h_reclen h)) data)). { unfold wf_bytes in *. rewrite <- (firstn_skipn (i * Z.to_nat (h_reclen h)) data) in W. apply Forall_app in W. apply W. }
  pose proof (las_base_range (h_fmt h)) as LB. assert (EBR : 0 <= h_reclen h - las_base (h_fmt h) <= 65535) by lia. destruct (unpack_inv _ _ _ _ _ _ _ WS EBR U) as (x & y & z & X & Y & Z & B & _ & WP & PF & PE & PX & PY & PZ & _).
  destruct (local_unpack _ _ _ _ _ _ _ U) as (pre & P & L). rewrite P in B. apply app_inv_tail in B. split; [exact WP|]. split; [exact PF|]. split; [destruct WP as (_ & Q & _); rewrite Q, PF, PE; lia|].
  exists pre. split; [|exact L]. rewrite B. unfold point_pack, packed. destruct EX as ((s1 & s2 & s3 & s4 & s5) & (t1 & t2 & t3 & t4 & t5) & (u1 & u2 & u3 & u4 & u5)). rewrite PX, PY, PZ. unfold INT32_MIN, INT32_MAX in *.
  rewrite (repack_exact x), (repack_exact y), (repack_exact z) by assumption. reflexivity.
Qed.
Lemma exact_pack h hp : plain_header h -> forall l ps, mapM (hget hp) l = Ok ps -> Forall (exact_point h) ps ->
  exists data, points_pack hp (mkPoints (h_fmt h) (h_reclen h) l) (h_scale h) (h_offset h) = Ok data /\ decodes_to h data ps /\ wf_bytes data.
Proof.
  intros (F & R). unfold points_pack. cbn [c_pts]. induction l as [|a l IH]; intros ps E X; cbn [mapM] in E.
  - assert (ps = []) as -> by congruence. exists []. split; [reflexivity|]. split; [split; [reflexivity|intros [] q Q; discriminate]|constructor].
  - apply bind_ok in E as (p & P & E). apply bind_ok in E as (q & Q & E). assert (ps = p :: q) as -> by congruence. pose proof (Forall_inv X) as (WP & PF & PR & b & PB & U). apply Forall_inv_tail in X. destruct (IH q Q X) as (data & PD & (DL & DD) & WD).
    cbn [mapM]. rewrite P. cbn [bind]. rewrite PB. cbn [bind]. apply bind_ok in PD as (bs & M & PD). rewrite M. cbn [bind]. exists (b ++ data). assert (concat bs = data) as <- by congruence. split; [reflexivity|].
    pose proof (pack_length _ _ _ _ WP PB) as LB. rewrite PR in LB. pose proof (las_base_range (h_fmt h)). split; [split|].
    + rewrite app_length. cbn [length]. lia.
    + intros [|i] s NS; cbn [nth_error] in NS.
      * assert (s = p) as -> by congruence. exists (concat bs). cbn [Nat.mul skipn]. apply U.
      * destruct (DD i s NS) as (rest & DR). exists rest. rewrite <- DR. f_equal. rewrite skipn_app. replace (S i * Z.to_nat (h_reclen h) - length b)%nat with (i * Z.to_nat (h_reclen h))%nat by (cbn; lia). rewrite skipn_all2 by (cbn; lia). reflexivity.
    + apply wf_bytes_app. split; [eapply pack_wf; eauto|exact WD].
Qed.

(* ---- the points of a node that crosses the box ---- *)
Lemma own_format p : wf_point p -> to_point_format (p_fmt p) p = Ok p.
Proof.
  intros (F & R & E & _ & _ & _ & _ & _ & _ & _ & _ & _ & _ & _ & _ & G & N). unfold to_point_format. assert (Q : p_fmt p = 6 \/ p_fmt p = 7 \/ p_fmt p = 8) by lia. pose proof (las_base_range (p_fmt p)) as LB.
  assert (TU : to_u 32 (las_base (p_fmt p) + Z.of_nat (length (p_eb p))) = p_reclen p) by (rewrite R; apply to_u_id; lia).
  destruct p as [pf pr px py pz pi pret pfl pc pa pu ps pg pre pgr pbl pn phr phn peb]. cbn [p_fmt p_eb p_reclen p_has_rgb p_has_nir] in *. subst phr phn. rewrite <- TU.
  destruct Q as [Q|[Q|Q]]; subst pf; reflexivity.
Qed.
Lemma hset_same : forall h a p, nth_error h a = Some p -> hset h a p = h.
Proof. induction h as [|q h IH]; intros [|a] p E; cbn in *; try discriminate; [congruence|]. f_equal. auto. Qed.
Lemma for_each_same fmt h : forall l ps, mapM (hget h) l = Ok ps -> Forall (fun p => wf_point p /\ p_fmt p = fmt) ps -> for_each (to_point_format fmt) l h = Ok h.
Proof.
  induction l as [|a l IH]; intros ps E F; [reflexivity|]. cbn [mapM] in E. apply bind_ok in E as (p & P & E). apply bind_ok in E as (q & Q & E). assert (ps = p :: q) as -> by congruence. pose proof (Forall_inv F) as (W & <-). apply Forall_inv_tail in F.
  cbn [for_each]. rewrite P. cbn [bind]. rewrite own_format by exact W. cbn [bind]. rewrite hset_same; [eapply IH; eauto|]. unfold hget in P. destruct (nth_error h a); congruence.
Qed.
Definition selected (b : box) (ps : list point) : list nat := match get_within ps (seq 0 (length ps)) b with Ok l => l | _ => [] end.
Lemma selected_points b ps : get_within ps (seq 0 (length ps)) b = Ok (selected b ps) /\ mapM (hget ps) (selected b ps) = Ok (in_box b ps).
Proof. unfold selected. pose proof (hget_fresh [] ps) as H. cbn [app length] in H. destruct (within_points ps b _ _ H) as (l & E & M & _). rewrite E. auto. Qed.
Lemma selected_nil b ps : selected b ps = [] <-> in_box b ps = [].
Proof.
  destruct (selected_points b ps) as (_ & M). destruct (selected b ps) as [|a l]; [cbn [mapM] in M; split; [congruence|reflexivity]|]. split; [discriminate|]. intros E. rewrite E in M. cbn [mapM] in M. apply bind_ok in M as (p & _ & M). apply bind_ok in M as (q & _ & M). discriminate.
Qed.
Lemma trimmed_spec h b fmt ps : plain_header h -> keeps_format h fmt -> Forall (fun p => wf_point p /\ p_fmt p = h_fmt h /\ p_reclen p = h_reclen h) ps ->
  trimmed_points b fmt (ps, mkPoints (h_fmt h) (h_reclen h) (seq 0 (length ps))) = match in_box b ps with [] => Throw | _ => Ok (ps, mkPoints (h_fmt h) (h_reclen h) (selected b ps)) end.
Proof.
  intros (F & R) SF W. unfold trimmed_points. cbn [fst snd c_pts]. destruct (selected_points b ps) as (E & M). rewrite E. cbn [bind]. pose proof (selected_nil b ps) as NIL. destruct (in_box b ps) as [|p q] eqn:IB.
  - rewrite (proj2 NIL eq_refl). reflexivity.
  - assert (WB : Forall (fun p => wf_point p /\ p_fmt p = h_fmt h /\ p_reclen p = h_reclen h) (p :: q)) by (rewrite <- IB; now apply filter_forall).
    destruct (selected b ps) as [|a l] eqn:SL; [discriminate (proj1 NIL eq_refl)|]. unfold points_of_vec. pose proof M as M'. cbn [mapM] in M. apply bind_ok in M as (p' & P & M). apply bind_ok in M as (q' & Q & M). assert (p' = p) as -> by congruence. rewrite P. cbn [bind].
    destruct (Forall_inv WB) as (_ & PF & PR). rewrite PF, PR. unfold add_points_vec. rewrite (all_fit_ok ps (mkPoints (h_fmt h) (h_reclen h) []) (a :: l) (p :: q) M') by (eapply Forall_impl; [|exact WB]; intros x (_ & X); exact X). cbn [bind c_fmt c_reclen c_pts app].
    destruct SF as [->| ->]; [reflexivity|]. unfold points_to_format. destruct (Z.ltb_spec (h_fmt h) 6); [lia|]. destruct (Z.ltb_spec 8 (h_fmt h)); [lia|]. cbn [orb c_pts c_fmt c_reclen].
    rewrite (for_each_same (h_fmt h) ps (a :: l) (p :: q) M') by (eapply Forall_impl; [|exact WB]; intros x (X & Y & _); auto). cbn [bind]. rewrite las_base_ok by exact F. cbn [bind]. pose proof (las_base_range (h_fmt h)) as LB.
    rewrite point_byte_size_ok by exact F. cbn [bind]. rewrite (to_u_id 32 (h_reclen h - las_base (h_fmt h))) by lia. rewrite (to_u_id 16 (h_reclen h - las_base (h_fmt h))) by lia. rewrite to_u_id by lia. do 3 f_equal. lia.
Qed.
Lemma decoded_points h data ps : plain_header h -> wf_bytes data -> decodes_to h data ps -> Forall (fun p => wf_point p /\ p_fmt p = h_fmt h /\ p_reclen p = h_reclen h) ps.
Proof.
  intros (F & R) W (_ & D). apply Forall_forall. intros p I. apply In_nth_error in I as (i & I). destruct (D i p I) as (rest & U).
  assert (WS : wf_bytes (skipn (i * Z.to_nat (h_reclen h)) data)). { unfold wf_bytes in *. rewrite <- (firstn_skipn (i * Z.to_nat (h_reclen h)) data) in W. apply Forall_app in W. apply W. }
  pose proof (las_base_range (h_fmt h)) as LB. assert (EBR : 0 <= h_reclen h - las_base (h_fmt h) <= 65535) by lia. destruct (unpack_inv _ _ _ _ _ _ _ WS EBR U) as (x & y & z & _ & _ & _ & _ & _ & WP & PF & PE & _).
  split; [exact WP|]. split; [exact PF|]. destruct WP as (_ & Q & _). rewrite Q, PF, PE. lia.
Qed.

(* ---- the loop ---- *)
Definition trim_op (h : las_header) (f : bytes) (P : node -> list point) (b : box) (n : node) : list wop :=
  if key_within (n_key n) (h_min h) (h_max h) b then [WAddCompressed (n_key n) (chunk_in f n) (e_count (n_entry n)) (n_page n)]
  else if key_intersects (n_key n) (h_min h) (h_max h) b then [WAddPoints (n_key n) (P n) (mkPoints (h_fmt h) (h_reclen h) (selected b (P n))) (n_page n)]
  else [].
Section Trim.
Variables (cd : codec) (f : bytes) (hs : list page_info) (P : node -> list point) (r : reader) (b : box) (fmt : option Z).
Let h := c_hdr (r_cfg r).
Definition source_node (n : node) : Prop := stored_nodes hs n /\ 0 < e_count (n_entry n) /\ whole_chunk f n /\
  (exists data, chunk_records cd h f n data /\ decodes_to h data (P n)) /\ Forall (fun p => point_within p (node_box h n) = true) (P n).
Hypothesis SR : copc_pages f hs.
Hypothesis FL : Z.of_nat (length f) < 2 ^ 63.
Hypothesis RO : reader_on f r.
Hypothesis PH : 6 <= h_fmt h <= 8 /\ las_base (h_fmt h) <= h_reclen h <= 255.
Hypothesis SF : keeps_format h fmt.
Lemma trim_plain : plain_header h.
Proof. clear - PH. split; [apply PH|]. lia. Qed.
Lemma trim_points n : source_node n -> get_points_node cd [] n r = (r, Ok (P n, mkPoints (h_fmt h) (h_reclen h) (seq 0 (length (P n))))) /\
  Forall (fun p => wf_point p /\ p_fmt p = h_fmt h /\ p_reclen p = h_reclen h) (P n).
Proof.
  intros (S & C & W & (data & CR & D) & _). pose proof (source_good f hs r SR FL RO) as G. destruct (good_data f hs r G) as (RD & RF). destruct (stored_facts f hs n SR S) as (V & _).
  assert (H : holds_records cd h f n data) by (apply (chunk_holds cd f hs); auto; [lia|apply PH|apply PH]).
  destruct (points_ok cd f n (P n) r [] RD RF FL V) as (E & _); [exists data; auto|]. split; [exact E|]. apply (decoded_points h data); [exact trim_plain|apply CR|exact D].
Qed.
Lemma trim_chunk n : source_node n -> get_compressed_node n r = (r, Ok (chunk_in f n)).
Proof.
  intros (S & C & W & _). pose proof (source_good f hs r SR FL RO) as G. destruct (stored_facts f hs n SR S) as (V & _). apply (compressed_ok f hs FL n r G V W).
Qed.
Lemma trim_run : forall l w r' w', Forall source_node l -> trim_nodes cd h b fmt l r w = (r', w', Ok tt) ->
  r' = r /\ (exists lg, wrun cd (flat_map (trim_op h f P b) l) w = (w', lg) /\ Forall (fun x : wop * outcome (option node) => exists n, snd x = Ok (Some n)) lg) /\
  Forall (fun n => key_within (n_key n) (h_min h) (h_max h) b = false -> key_intersects (n_key n) (h_min h) (h_max h) b = true -> in_box b (P n) <> []) l.
Proof.
  induction l as [|n l IH]; intros w r' w' F H; cbn [trim_nodes flat_map] in *.
  - assert (r' = r /\ w' = w) as (-> & ->) by (split; congruence). split; [reflexivity|]. split; [exists []; split; [reflexivity|constructor]|constructor].
  - pose proof (Forall_inv F) as N. apply Forall_inv_tail in F. unfold trim_op at 1. destruct (key_within (n_key n) (h_min h) (h_max h) b) eqn:KW.
    + rewrite (trim_chunk n N) in H. destruct (add_node_compressed cd (n_key n) (chunk_in f n) (e_count (n_entry n)) (n_page n) w) as (w1, [m| |]) eqn:A; try discriminate.
      destruct (IH _ _ _ F H) as (-> & (lg & R & OKS) & NE). split; [reflexivity|]. split; [|constructor; [congruence|exact NE]]. cbn [app wrun wstep]. rewrite A. cbn [some_node]. rewrite R. eexists. split; [reflexivity|]. constructor; [exists m; reflexivity|exact OKS].
    + destruct (key_intersects (n_key n) (h_min h) (h_max h) b) eqn:KI.
      * destruct (trim_points n N) as (E & WP). rewrite E, (trimmed_spec h b fmt (P n) trim_plain SF WP) in H. destruct (in_box b (P n)) as [|p q] eqn:IB; [discriminate|]. cbn [fst snd] in H.
        destruct (add_node_points cd (n_key n) (P n) (mkPoints (h_fmt h) (h_reclen h) (selected b (P n))) (n_page n) w) as (w1, [m| |]) eqn:A; try discriminate.
        destruct (IH _ _ _ F H) as (-> & (lg & R & OKS) & NE). split; [reflexivity|]. split; [|constructor; [intros _ _; rewrite IB; discriminate|exact NE]]. cbn [app wrun wstep]. rewrite A. cbn [some_node]. rewrite R. eexists. split; [reflexivity|]. constructor; [exists m; reflexivity|exact OKS].
      * cbn [app]. destruct (IH _ _ _ F H) as (-> & (lg & R & OKS) & NE). split; [reflexivity|]. split; [eauto|]. constructor; [congruence|exact NE].
Qed.
End Trim.

(* ---- the file it leaves ---- *)
Lemma trim_adds h f P b : forall l, SpecOrder.adds (flat_map (trim_op h f P b) l) = map (fun n => (n_key n, n_page n)) (filter (kept h b) l).
Proof.
  induction l as [|n l IH]; [reflexivity|]. cbn [flat_map filter]. unfold SpecOrder.adds in *. rewrite flat_map_app, IH. unfold trim_op, kept, node_box, key_within, key_intersects.
  destruct (box_within _ b); cbn [orb]; [reflexivity|]. destruct (box_intersects _ b); reflexivity.
Qed.
Lemma trim_no_moves h f P b l op : In op (flat_map (trim_op h f P b) l) -> exists n, In n l /\ kept h b n = true /\ trim_op h f P b n = [op] /\ add_keys op = Some (n_key n, n_page n).
Proof.
  intros I. apply in_flat_map in I as (n & N & I). exists n. split; [exact N|]. unfold trim_op, kept, node_box, key_within, key_intersects in *. destruct (box_within _ b); cbn [orb]; [destruct I as [<-|[]]; auto|]. destruct (box_intersects _ b); [destruct I as [<-|[]]; auto|destruct I].
Qed.
Lemma trim_changes h f P b : forall l, changes (flat_map (trim_op h f P b) l) = [].
Proof.
  intros l. unfold changes. assert (A : forall op, In op (flat_map (trim_op h f P b) l) -> add_keys op <> None) by (intros op I; apply trim_no_moves in I as (n & _ & _ & _ & E); congruence).
  induction (flat_map (trim_op h f P b) l) as [|op ops IH]; [reflexivity|]. cbn [filter]. destruct (add_keys op) eqn:E; [apply IH; intros o I; apply A; now right|]. destruct (A op (or_introl eq_refl) E).
Qed.
Lemma trim_length h f P b : forall l, (length (flat_map (trim_op h f P b) l) <= length l)%nat.
Proof.
  induction l as [|n q IH]; [reflexivity|]. cbn [flat_map length]. rewrite app_length. assert (length (trim_op h f P b n) <= 1)%nat; [|lia]. unfold trim_op. destruct (key_within _ _ _ b); [cbn [length]; lia|]. destruct (key_intersects _ _ _ b); cbn [length]; lia.
Qed.
Lemma trim_ops_wf cd f hs P r b l : copc_pages f hs -> Forall (source_node cd f hs P r) l -> Forall wf_op (flat_map (trim_op (c_hdr (r_cfg r)) f P b) l) /\ Forall positive (flat_map (trim_op (c_hdr (r_cfg r)) f P b) l).
Proof.
  intros SR F. rewrite Forall_forall in F. split; apply Forall_forall; intros op I; apply trim_no_moves in I as (n & N & _ & E & _); destruct (F n N) as (S & C & _); destruct (stored_wf f hs n SR S) as (K1 & K2 & W); apply wf_key_int32 in K1, K2; unfold trim_op in E;
      destruct (key_within _ _ _ b); [|destruct (key_intersects _ _ _ b); [|discriminate]|..| destruct (key_intersects _ _ _ b); [|discriminate]]; assert (EE := f_equal (fun q => match q with [] => op | o :: _ => o end) E); cbv beta iota in EE; rewrite <- EE; cbn [wf_op positive]; auto.
    split; [exact K1|]. split; [exact K2|]. unfold wf_entry, i32, in_range, INT32_MAX, INT32_MIN in W. repeat (apply andb_prop in W as (W & ?)). lia.
Qed.
Section Trimmed.
Variables (cd : codec) (f : bytes) (hs : list page_info) (P : node -> list point) (r : reader) (b : box) (fmt : option Z) (l : list node).
Let h := c_hdr (r_cfg r).
Hypothesis TF : trims_from cd f hs P r l.
Hypothesis SF : keeps_format h fmt.
Variables (c : config) (v : overrides) (c0 : config) (w : writer).
Hypothesis TR : trimming cd b fmt l r c v c0 w.
Hypothesis SM : same_meaning h (c_hdr c0).
Hypothesis R255 : h_reclen h <= 255.
Let ops := flat_map (trim_op h f P b) l.
Lemma trim_header : 6 <= h_fmt h <= 8 /\ las_base (h_fmt h) <= h_reclen h <= 255.
Proof.
  destruct TR as (w0 & w1 & r' & wod & _ & _ & RD & _). destruct (ready_header _ RD) as (A & B & _). destruct SM as (E1 & E2 & _). rewrite E1, E2 in *. lia.
Qed.
Lemma trim_unique x y : In x l -> In y l -> n_key x = n_key y -> x = y.
Proof. destruct TF as (SR & _ & _ & _ & F). rewrite Forall_forall in F. intros X Y K. eapply stored_unique; [exact SR|apply (F x X)|apply (F y Y)|exact K]. Qed.
Lemma trim_once : once_each ops.
Proof.
  split; [intros k p I; apply trim_no_moves in I as (n & _ & _ & _ & E); discriminate|]. unfold ops. rewrite trim_adds, map_map. cbn [fst]. apply nodup_map; [|apply NoDup_filter, TF]. intros x y X Y. apply filter_In in X as (X & _), Y as (Y & _). now apply trim_unique.
Qed.
Lemma trim_written : exists lg, written cd c0 ops lg w /\ map fst lg = ops /\ Forall (fun x : wop * outcome (option node) => exists n, snd x = Ok (Some n)) lg /\
  Forall (fun n => key_within (n_key n) (h_min h) (h_max h) b = false -> key_intersects (n_key n) (h_min h) (h_max h) b = true -> in_box b (P n) <> []) l.
Proof.
  pose proof trim_header as PH. pose proof TR as (w0 & w1 & r' & wod & O & IW & RD & RE & LP & CL & FW). pose proof TF as (SR & FL & RO & ND & F). destruct (trim_run cd f hs P r b fmt SR FL RO PH SF l w0 r' w1 F LP) as (_ & (lg & R & OKS) & NE).
  exists lg. assert (AD : all_defined lg) by (unfold all_defined; eapply Forall_impl; [|exact OKS]; intros x (n & ->); discriminate).
  assert (WF : Forall wf_op ops /\ Forall positive ops) by (apply (trim_ops_wf cd f hs P r b l SR F)).
  assert (CS : complete_session cd wod c v c0 ops lg w) by (split; [exists w0, w1; auto|]; split; [exact IW|]; split; [exact RD|]; split; [apply WF|]; split; [exact RE|]; split; [exact AD|lia]).
  split; [split; [eauto|]; split; [eapply once_settled; [exact CS|exact trim_once]|]; split; [apply WF|exact FW]|]. split; [eapply session_ops; eauto|]. auto.
Qed.
Lemma trim_config lg : written cd c0 ops lg w -> c_hdr (w_cfg w) = c_hdr c0 /\ c_wkt (w_cfg w) = c_wkt c0 /\ c_ebs (w_cfg w) = c_ebs c0 /\ c_exts (w_cfg w) = c_exts c0 /\ same_cube (c_info c0) (c_info (w_cfg w)).
Proof. intros ((od & cc & vv & CS) & _). pose proof (session_end _ _ _ _ _ _ _ _ CS trim_once) as Q. unfold ops in Q. rewrite trim_changes in Q. exact Q. Qed.
Lemma trim_storable lg : written cd c0 ops lg w -> storable c0 -> storable (w_cfg w).
Proof. intros W ST. destruct (trim_config lg W) as (H1 & H2 & H3 & H4 & _). unfold storable. rewrite H1, H2, H3, H4. exact ST. Qed.
Lemma trim_count : (length ops <= length l)%nat.
Proof. apply trim_length. Qed.
(* the view of the finished file *)
Lemma trim_view lg n : written cd c0 ops lg w -> In n l -> kept h b n = true -> exists nd op, view_of lg (n_key n) = Some (nd, n_page n) /\ In (op, Ok (Some nd)) lg /\ trim_op h f P b n = [op].
Proof.
  intros W N K. pose proof trim_written as (lg' & W' & MF' & OKS' & _). assert (OP : exists op, trim_op h f P b n = [op] /\ add_keys op = Some (n_key n, n_page n)).
  { unfold trim_op, kept, node_box, key_within, key_intersects in *. destruct (box_within _ b); [eauto|]. cbn [orb] in K. rewrite K. eauto. }
  destruct OP as (op & OP & AK). assert (I : In op ops) by (apply in_flat_map; exists n; split; [exact N|rewrite OP; now left]).
  pose proof W as ((od & cc & vv & CS) & _ & _ & FW). pose proof W' as ((od' & cc' & vv' & CS') & _ & _ & FW'). assert (J : In op (map fst lg')) by (now rewrite MF'). apply in_map_iff in J as ((op', o) & E & J). cbn [fst] in E. subst op'. rewrite Forall_forall in OKS'. destruct (OKS' _ J) as (nd' & Q). cbn [snd] in Q. subst o.
  destruct (accepted_elsewhere cd c0 ops lg' w ops lg w op nd' W' W (Permutation_refl _) J) as (nd & J' & _). exists nd, op. split; [|auto]. apply (view_iff cd c0 ops lg w (n_key n) nd (n_page n) W trim_once). eauto.
Qed.
Lemma trim_view_only lg k nd p : written cd c0 ops lg w -> view_of lg k = Some (nd, p) -> exists n, In n l /\ kept h b n = true /\ n_key n = k /\ n_page n = p.
Proof.
  intros W V. apply (view_iff cd c0 ops lg w k nd p W trim_once) in V as (op & I & A). assert (J : In op ops). { destruct W as ((od & cc & vv & CS) & _). rewrite <- (session_ops _ _ _ _ _ _ _ _ CS). apply (in_map fst) in I. exact I. }
  apply trim_no_moves in J as (n & N & K & _ & E). exists n. split; [exact N|]. split; [exact K|]. split; congruence.
Qed.
(* the points of its nodes *)
Lemma within_all n : In n l -> box_within (node_box h n) b = true -> in_box b (P n) = P n.
Proof.
  intros N B. destruct TF as (_ & _ & _ & _ & F). rewrite Forall_forall in F. destruct (F n N) as (_ & _ & _ & _ & Q). unfold in_box. fold h in Q. induction Q as [|p q PB _ IH]; [reflexivity|]. cbn [filter]. rewrite (point_in_larger p _ b PB B). now rewrite IH.
Qed.
Lemma skipped_none n : In n l -> kept h b n = false -> in_box b (P n) = [].
Proof.
  intros N K. apply orb_false_iff in K as (_ & K). destruct TF as (_ & _ & _ & _ & F). rewrite Forall_forall in F. destruct (F n N) as (_ & _ & _ & _ & Q). unfold in_box. fold h in Q. induction Q as [|p q PB _ IH]; [reflexivity|]. cbn [filter]. destruct (point_within p b) eqn:E; [|exact IH].
  rewrite (point_in_both p _ b PB E) in K. discriminate.
Qed.
Hypothesis LS : lossless cd.
Hypothesis ER : exact_region (h_scale h) (h_offset h).
Hypothesis ST : storable c0.
Hypothesis LL : Z.of_nat (length l) < 2 ^ 32 - 2.
Lemma trim_points_of lg n nd op r2 : written cd c0 ops lg w -> In n l -> view_of lg (n_key n) = Some (nd, n_page n) -> In (op, Ok (Some nd)) lg -> trim_op h f P b n = [op] -> reader_on (file w) r2 ->
  same_meaning h (c_hdr (r_cfg r2)) /\ node_points cd (c_hdr (r_cfg r2)) (file w) (mkNode (n_entry nd) (n_page n)) (in_box b (P n)) /\
  (box_within (node_box h n) b = true -> e_count (n_entry nd) = e_count (n_entry n) /\ e_size (n_entry nd) = e_size (n_entry n)).
Proof.
  intros W N V J OP R2. pose proof trim_header as PH. pose proof TF as (SR & FL & RO & ND & F). rewrite Forall_forall in F. destruct (F n N) as (S & C & WC & (data & CR & D) & PB). fold h in CR, D, PB.
  pose proof trim_count as TC. assert (LO : Z.of_nat (length ops) < 2 ^ 32 - 2) by lia. destruct (used_header _ _ _ _ _ _ W (trim_storable lg W ST) LO R2) as (F2 & RL2 & SC2 & OF2). destruct SM as (M1 & M2 & M3 & M4). rewrite M1 in F2. rewrite M2 in RL2. rewrite M3 in SC2. rewrite M4 in OF2.
  split; [repeat split; assumption|]. pose proof W as ((od & cc & vv & CS) & _ & PO & FW). assert (WE : whole_chunk (file w) (mkNode (n_entry nd) (n_page n))) by exact (chunk_within _ _ _ _ _ _ _ _ _ _ (n_page n) CS J).
  unfold trim_op in OP. unfold node_box. change (box_within (box_of_key (n_key n) (h_min h) (h_max h)) b) with (key_within (n_key n) (h_min h) (h_max h) b). destruct (key_within (n_key n) (h_min h) (h_max h) b) eqn:KW.
  - assert (op = WAddCompressed (n_key n) (chunk_in f n) (e_count (n_entry n)) (n_page n)) as -> by congruence. rewrite within_all by assumption.
    destruct (chunk_kept _ _ _ _ _ _ _ _ _ _ CS J) as (x & CO & _ & SZ & BX). cbn [chunk_of] in CO. assert (x = chunk_in f n) as -> by congruence. assert (CE : e_count (n_entry nd) = e_count (n_entry n)) by congruence.
    destruct (chunk_size f hs n_page SR n S WC) as (LC & _). split; [|intros _; split; [exact CE|lia]]. exists data. split; [|eapply same_decodes; [..|exact D]; congruence].
    destruct (written_reader cd c0 ops lg w r2 W R2) as (hs2 & S2 & L2 & STN & _ & G2). assert (NS : stored_node hs2 (n_key n) (mkNode (n_entry nd) (n_page n))) by (apply STN; now exists nd, (n_page n)).
    assert (K : n_key nd = n_key n). { destruct NS as (i & e & _ & _ & _ & _ & K & E). assert (n_entry nd = e) by congruence. unfold n_key at 1. congruence. }
    apply (chunk_holds cd (file w) hs2); auto; [unfold stored_nodes, n_key; cbn [n_entry]; fold (n_key nd); rewrite K; exact NS|cbn [n_entry]; lia|rewrite F2; apply PH|rewrite F2, RL2; apply PH|].
    destruct CR as (D1 & D2 & D3). unfold chunk_records, chunk_in. cbn [n_entry]. rewrite F2, RL2, CE, BX. auto.
  - split; [|discriminate]. destruct (key_intersects (n_key n) (h_min h) (h_max h) b); [|discriminate]. assert (op = WAddPoints (n_key n) (P n) (mkPoints (h_fmt h) (h_reclen h) (selected b (P n))) (n_page n)) as -> by congruence.
    assert (PL : plain_header h) by (split; [apply PH|lia]). assert (EP : Forall (exact_point h) (in_box b (P n))) by (apply filter_forall; eapply decoded_exact; [exact PL|exact ER|apply CR|exact D]).
    destruct (selected_points b (P n)) as (_ & MS). destruct (exact_pack h (P n) PL _ _ MS EP) as (d2 & PK & D2 & W2). exists d2. split; [|eapply same_decodes; [..|exact D2]; congruence].
    apply (holds_written cd od cc vv c0 ops lg w _ nd d2 LS CS J); auto; [cbn [stores_records]; now rewrite M3, M4|exact Logic.I|lia|congruence|congruence].
Qed.
End Trimmed.

(* ---- when it succeeds ---- *)
Lemma write_compresses cd h data x n b : chunk_source cd h data 0 false = Ok (x, n) -> write_chunk cd h data 0 false b = write_chunk cd h x n true b.
Proof. unfold chunk_source, write_chunk. intros ->. reflexivity. Qed.
Lemma add_points_succeeds cd k hp c page w data : c_pts c <> [] -> c_fmt c = h_fmt (c_hdr (w_cfg w)) -> c_reclen c = h_reclen (c_hdr (w_cfg w)) -> 6 <= h_fmt (c_hdr (w_cfg w)) <= 8 -> las_base (h_fmt (c_hdr (w_cfg w))) <= h_reclen (c_hdr (w_cfg w)) <= 65535 ->
  points_pack hp c (h_scale (c_hdr (w_cfg w))) (h_offset (c_hdr (w_cfg w))) = Ok data -> data <> [] -> Z.of_nat (length data) mod h_reclen (c_hdr (w_cfg w)) = 0 -> Z.of_nat (length data) <= INT32_MAX ->
  let x := cd_comp cd (h_fmt (c_hdr (w_cfg w))) (h_reclen (c_hdr (w_cfg w)) - las_base (h_fmt (c_hdr (w_cfg w)))) data in Z.of_nat (length x) <= INT32_MAX ->
  at_end (b_out (w_base w)) -> 0 < Z.of_nat (length (file w)) -> Z.of_nat (length (file w)) + Z.of_nat (length x) < 2 ^ 63 -> key_valid k = true -> key_valid page = true -> child_of k page = true ->
  exists w' nd, add_node_points cd k hp c page w = (w', Ok nd) /\ at_end (b_out (w_base w')) /\ file w' = file w ++ x /\ w_cfg w' = w_cfg w.
Proof.
  intros NE F R F6 RB PK DN MD DL x XL AE POS SM K PG CH. unfold add_node_points. cbv zeta. destruct (c_pts c) eqn:CP; [contradiction|]. rewrite F, R, !Z.eqb_refl. cbn [negb orb]. rewrite PK. unfold add_node. destruct data as [|d0 dd] eqn:DE; [contradiction|]. rewrite <- DE in *. cbv zeta.
  pose proof (las_base_range (h_fmt (c_hdr (w_cfg w)))) as LB. destruct (Z.eqb_spec (h_reclen (c_hdr (w_cfg w))) 0); [lia|]. rewrite MD, Z.eqb_refl. cbn [negb].
  assert (CS : chunk_source cd (c_hdr (w_cfg w)) data 0 false = Ok (x, Z.of_nat (length data) / h_reclen (c_hdr (w_cfg w)))).
  { unfold chunk_source. rewrite eb_size_is by (auto; lia). cbn [bind]. unfold compress_bytes. rewrite point_byte_size_ok by auto. cbn [bind]. cbv zeta. rewrite to_u_id by lia. replace (las_base (h_fmt (c_hdr (w_cfg w))) + (h_reclen (c_hdr (w_cfg w)) - las_base (h_fmt (c_hdr (w_cfg w))))) with (h_reclen (c_hdr (w_cfg w))) by lia.
    destruct (Z.eqb_spec (h_reclen (c_hdr (w_cfg w))) 0); [lia|]. rewrite MD, Z.eqb_refl. cbn [negb]. destruct (Z.ltb_spec INT32_MAX (Z.of_nat (length data))); [lia|]. unfold x. now rewrite DE. }
  assert (CNT : 0 < Z.of_nat (length data) / h_reclen (c_hdr (w_cfg w))).
  { assert (0 < Z.of_nat (length data)) by (rewrite DE; cbn [length]; lia). apply Z.div_str_pos. split; [lia|]. apply Z.mod_divide in MD; [|lia]. apply Z.divide_pos_le; auto. }
  destruct (add_succeeds cd k x (Z.of_nat (length data) / h_reclen (c_hdr (w_cfg w))) page w AE POS SM XL CNT K PG CH) as (w' & nd & E & AE' & FW). exists w', nd. pose proof (add_cfg _ _ _ _ _ _ _ _ E) as CF.
  split; [|auto]. rewrite <- E. unfold add_node_compressed. destruct (Z.eqb_spec (Z.of_nat (length data) / h_reclen (c_hdr (w_cfg w))) 0); [lia|]. unfold do_add_node. now rewrite (write_compresses _ _ _ _ _ _ CS).
Qed.
Section Runs.
Variables (cd : codec) (f : bytes) (hs : list page_info) (P : node -> list point) (r : reader) (b : box) (fmt : option Z).
Let h := c_hdr (r_cfg r).
Hypothesis SR : copc_pages f hs.
Hypothesis FL : Z.of_nat (length f) < 2 ^ 63.
Hypothesis RO : reader_on f r.
Hypothesis PH : 6 <= h_fmt h <= 8 /\ las_base (h_fmt h) <= h_reclen h <= 255.
Hypothesis SF : keeps_format h fmt.
Hypothesis ER : exact_region (h_scale h) (h_offset h).
Lemma crossing_data n : source_node cd f hs P r n -> exists data, points_pack (P n) (mkPoints (h_fmt h) (h_reclen h) (selected b (P n))) (h_scale h) (h_offset h) = Ok data /\
  Z.of_nat (length data) = Z.of_nat (length (in_box b (P n))) * h_reclen h.
Proof.
  intros (S & C & W & (data & CR & D) & _). fold h in CR, D. assert (PL : plain_header h) by (split; [apply PH|lia]). assert (EP : Forall (exact_point h) (in_box b (P n))) by (apply filter_forall; eapply decoded_exact; [exact PL|exact ER|apply CR|exact D]).
  destruct (selected_points b (P n)) as (_ & MS). destruct (exact_pack h (P n) PL _ _ MS EP) as (d2 & PK & (DL & _) & _). eauto.
Qed.
Definition room (n : node) : Prop := key_within (n_key n) (h_min h) (h_max h) b = false -> key_intersects (n_key n) (h_min h) (h_max h) b = true ->
  in_box b (P n) <> [] /\ forall data, points_pack (P n) (mkPoints (h_fmt h) (h_reclen h) (selected b (P n))) (h_scale h) (h_offset h) = Ok data ->
    Z.of_nat (length data) <= INT32_MAX /\ Z.of_nat (length (cd_comp cd (h_fmt h) (h_reclen h - las_base (h_fmt h)) data)) <= INT32_MAX.
Lemma trim_succeeds : forall l w, same_meaning h (c_hdr (w_cfg w)) -> Forall (source_node cd f hs P r) l -> Forall room l -> at_end (b_out (w_base w)) -> 0 < Z.of_nat (length (file w)) -> Z.of_nat (length (file w)) + 2 ^ 31 * Z.of_nat (length l) < 2 ^ 63 ->
  exists w', trim_nodes cd h b fmt l r w = (r, w', Ok tt) /\ w_cfg w' = w_cfg w.
Proof.
  induction l as [|n l IH]; intros w SM F RM AE POS SZ; cbn [trim_nodes length] in *; [eauto|]. pose proof (Forall_inv F) as N. apply Forall_inv_tail in F. pose proof (Forall_inv RM) as RN. apply Forall_inv_tail in RM.
  pose proof N as (S & C & WC & _). destruct (stored_facts f hs n SR S) as (_ & _ & _ & K & KP & CH). unfold INT32_MAX in *. destruct (key_within (n_key n) (h_min h) (h_max h) b) eqn:KW.
  - rewrite (trim_chunk cd f hs P r SR FL RO n N). destruct (chunk_size f hs n_page SR n S WC) as (LC & B). unfold INT32_MAX in B.
    destruct (add_succeeds cd (n_key n) (chunk_in f n) (e_count (n_entry n)) (n_page n) w) as (w' & nd & E & AE' & FW); auto; [lia|unfold INT32_MAX; lia|]. rewrite E. rewrite <- (add_cfg _ _ _ _ _ _ _ _ E). apply IH; auto; [rewrite (add_cfg _ _ _ _ _ _ _ _ E); exact SM|rewrite FW, app_length; lia..].
  - destruct (key_intersects (n_key n) (h_min h) (h_max h) b) eqn:KI; [|apply IH; auto; lia].
    destruct (trim_points cd f hs P r SR FL RO PH n N) as (E & WP). fold h in E, WP. rewrite E. assert (PL : plain_header h) by (split; [apply PH|lia]). rewrite (trimmed_spec h b fmt (P n) PL SF WP). destruct (RN KW KI) as (NE & SZS). destruct (in_box b (P n)) as [|p q] eqn:IB; [contradiction|]. cbn [fst snd].
    destruct (crossing_data n N) as (data & PK & DL). rewrite IB in DL. destruct (SZS data PK) as (SZ1 & SZ2). destruct SM as (M1 & M2 & M3 & M4). pose proof (las_base_range (h_fmt h)) as LB. cbn [length] in DL.
    assert (SL : selected b (P n) <> []) by (intros Q; apply selected_nil in Q; congruence).
    destruct (add_points_succeeds cd (n_key n) (P n) (mkPoints (h_fmt h) (h_reclen h) (selected b (P n))) (n_page n) w data) as (w' & nd & A & AE' & FW & CF); rewrite ?M1, ?M2, ?M3, ?M4; cbn [c_pts c_fmt c_reclen]; auto; try apply PH; try (unfold INT32_MAX; lia).
    + intros ->. cbn [length] in DL. assert (0 < Z.of_nat (Datatypes.S (length q)) * h_reclen h) by (apply Z.mul_pos_pos; lia). lia.
    + rewrite DL. apply Z_mod_mult.
    + unfold INT32_MAX in SZ2. lia.
    + unfold INT32_MAX in SZ2. rewrite A. rewrite <- CF. apply IH; auto; [rewrite CF; repeat split; assumption|rewrite FW, app_length, ?M1, ?M2; lia..].
Qed.
Lemma fits_room n : source_node cd f hs P r n -> fits cd h b P n -> room n.
Proof.
  intros N FT KW KI. destruct (FT KW KI) as (NE & SZ). split; [exact NE|]. intros data PK. apply SZ. destruct N as (S & C & W & (d & CR & D) & _). fold h in CR, D. assert (PL : plain_header h) by (split; [apply PH|lia]).
  assert (EP : Forall (exact_point h) (in_box b (P n))) by (apply filter_forall; eapply decoded_exact; [exact PL|exact ER|apply CR|exact D]).
  destruct (selected_points b (P n)) as (_ & MS). destruct (exact_pack h (P n) PL _ _ MS EP) as (d2 & PK2 & D2 & _). assert (data = d2) as -> by congruence. exact D2.
Qed.
(* a node that crosses the box but has no point in it ends the loop with an exception *)
Lemma trim_throws n l w : source_node cd f hs P r n -> key_within (n_key n) (h_min h) (h_max h) b = false -> key_intersects (n_key n) (h_min h) (h_max h) b = true -> in_box b (P n) = [] -> trim_nodes cd h b fmt (n :: l) r w = (r, w, Throw).
Proof.
  intros N KW KI IB. cbn [trim_nodes]. rewrite KW, KI. destruct (trim_points cd f hs P r SR FL RO PH n N) as (E & WP). fold h in E, WP. rewrite E. assert (PL : plain_header h) by (split; [apply PH|lia]). rewrite (trimmed_spec h b fmt (P n) PL SF WP), IB. reflexivity.
Qed.
End Runs.
