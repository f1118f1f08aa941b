(* ProofMp5.v - when transforming succeeds *)
From Coq Require Import Permutation.
From Verif Require Import Base BaseFacts ModelFloat ModelKey ModelGeom ModelEntry ModelPoint ModelPoints ModelHeader ModelVlr ModelExtents ModelConfig
  ModelStream ModelWriter ModelReader ModelPickle ModelMp SpecKey SpecPoint SpecPoints SpecConfig SpecWriter SpecHier SpecFile SpecReader SpecData SpecRound SpecMp
  ProofFloat ProofGeom ProofKey ProofPickle ProofPoint ProofPoints ProofConfig ProofStream ProofWriter ProofWriter2 ProofWriter4 ProofClose2 ProofSession ProofResults ProofReject ProofData ProofReader4 ProofReader6 ProofOpen ProofRound ProofMp ProofMp2 ProofMp3 ProofMp4.
Open Scope Z_scope.

Lemma add_succeeds cd k data count page w : at_end (b_out (w_base w)) -> 0 < Z.of_nat (length (file w)) -> Z.of_nat (length (file w)) + Z.of_nat (length data) < 2 ^ 63 -> Z.of_nat (length data) <= INT32_MAX ->
  0 < count -> key_valid k = true -> key_valid page = true -> child_of k page = true ->
  exists w' nd, add_node_compressed cd k data count page w = (w', Ok nd) /\ at_end (b_out (w_base w')) /\ file w' = file w ++ data.
Proof.
  intros AE POS SM SZ C K P CH. unfold add_node_compressed. destruct (Z.eqb_spec count 0); [lia|]. unfold do_add_node. rewrite K, P, CH. cbn [negb orb]. unfold write_chunk. cbv zeta.
  assert (G : good_out (b_out (w_base w))) by (destruct AE as (A & B & _); split; auto). assert (PO : o_pos (b_out (w_base w)) = length (file w)) by apply AE.
  rewrite (tell64_small _ G) by (rewrite PO; lia). rewrite PO. destruct (Z.leb_spec (Z.of_nat (length (file w))) 0); [lia|].
  rewrite put_end by exact AE. change (o_data (b_out (w_base w))) with (file w). rewrite tell64_small; [|split; reflexivity|cbn [o_pos]; rewrite app_length, Nat2Z.inj_add; lia].
  cbn [o_pos]. rewrite app_length, Nat2Z.inj_add. destruct (Z.leb_spec (Z.of_nat (length (file w)) + Z.of_nat (length data)) 0); [lia|].
  unfold to_u. rewrite Z.mod_small by lia. destruct (Z.ltb_spec INT32_MAX (Z.of_nat (length (file w)) + Z.of_nat (length data) - Z.of_nat (length (file w)))); [lia|].
  eexists. eexists. split; [reflexivity|]. cbn [w_base b_out]. split; [split; [reflexivity|split; [reflexivity|cbn [o_pos o_data]; now rewrite app_length]]|]. reflexivity.
Qed.
Lemma store_succeeds cd (ok : done -> Prop) : (forall d, ok d -> Z.of_nat (length (dn_data d)) <= INT32_MAX /\ dn_count d <= INT32_MAX /\ key_valid (n_key (dn_node d)) = true /\ key_valid (n_page (dn_node d)) = true /\ child_of (n_key (dn_node d)) (n_page (dn_node d)) = true) ->
  forall ds w bs s' o, Forall ok ds -> at_end (b_out (w_base w)) -> 0 < Z.of_nat (length (file w)) -> Z.of_nat (length (file w)) + 2 ^ 31 * Z.of_nat (length ds) < 2 ^ 63 ->
  each (store (add_to_copc cd)) ds (w, bs) = (s', o) -> o = Ok tt.
Proof.
  intros OK. induction ds as [|d ds IH]; intros w bs s' o F AE POS SM H; cbn [each] in H; [congruence|]. pose proof (Forall_inv F) as D. apply Forall_inv_tail in F. destruct (OK d D) as (A & B & K & P & C).
  unfold then_ in H. unfold store at 1 in H. cbn [length] in SM. unfold INT32_MAX in *. destruct (Z.ltb_spec 0 (dn_count d)).
  - cbn [fst snd] in H. unfold add_to_copc in H at 1. unfold INT32_MAX in H. destruct (Z.ltb_spec 2147483647 (dn_count d)); [lia|].
    destruct (add_succeeds cd (n_key (dn_node d)) (dn_data d) (dn_count d) (n_page (dn_node d)) w) as (w' & nd & E & AE' & FW); auto; [lia|]. rewrite E in H. refine (IH _ _ _ _ F AE' _ _ H); rewrite FW, app_length; lia.
  - refine (IH _ _ _ _ F AE POS _ H). lia.
Qed.
Lemma pack_points y s o data : points_pack (fst y) (snd y) s o = Ok data -> exists ps, points_in y ps.
Proof.
  unfold points_pack, points_in. intros H. apply bind_ok in H as (bs & H & _). revert bs H. generalize (c_pts (snd y)). intros l. induction l as [|a l IH]; intros bs H; [exists []; reflexivity|]. cbn [mapM] in *.
  apply bind_ok in H as (b & B & H). apply bind_ok in B as (q & Q & _). apply bind_ok in H as (bs' & BS & _). destruct (IH _ BS) as (ps & P). rewrite Q. cbn [bind]. rewrite P. eexists. reflexivity.
Qed.
Lemma bounds_succeed y ps : points_in y ps -> ps <> [] -> exists b, node_bounds y = Ok b.
Proof.
  intros P NE. unfold node_bounds. rewrite !(get_column _ y ps P). cbn [bind]. destruct ps; [contradiction|]. cbn [map py_min py_max bind]. eauto.
Qed.
Lemma job_succeeds cd tf upd hw x n y : 6 <= h_fmt hw <= 8 -> las_base (h_fmt hw) <= h_reclen hw < 65536 -> wf_entry (n_entry n) = true -> wf_key (n_page n) = true ->
  tf x n hw = Ok y -> packable cd hw y -> exists d, transform_job cd tf upd hw x n = Ok d.
Proof.
  intros F R W1 W2 TY (CN & data & PK & MD & SZ & CS). unfold transform_job. rewrite TY. cbn [bind]. cbv zeta. destruct (pack_points _ _ _ _ PK) as (ps & PS). pose proof (points_in_length _ _ PS) as LP.
  assert (B : exists bo, (if upd && (0 <? Z.of_nat (length (c_pts (snd y)))) then let! b := node_bounds y in Ok (Some b) else Ok None) = Ok bo).
  { destruct (upd && _) eqn:E; [|eauto]. apply andb_prop in E as (_ & E). apply Z.ltb_lt in E. destruct (bounds_succeed y ps PS) as (b & ->); [intros ->; cbn [length] in LP; lia|]. cbn [bind]. eauto. }
  destruct B as (bo & B). rewrite B. cbn [bind]. rewrite PK. cbn [bind]. rewrite eb_size_is by auto. cbn [bind].
  assert (C : exists m, compress_bytes cd (h_fmt hw) (h_reclen hw - las_base (h_fmt hw)) data = Ok (cd_comp cd (h_fmt hw) (h_reclen hw - las_base (h_fmt hw)) data, m)).
  { assert (30 <= las_base (h_fmt hw)) by (assert (D : h_fmt hw = 6 \/ h_fmt hw = 7 \/ h_fmt hw = 8) by lia; destruct D as [D|[D|D]]; rewrite D; cbn; lia).
    unfold compress_bytes. rewrite point_byte_size_ok by auto. cbn [bind]. cbv zeta. rewrite to_u_id by lia. replace (las_base (h_fmt hw) + (h_reclen hw - las_base (h_fmt hw))) with (h_reclen hw) by lia.
    destruct (Z.eqb_spec (h_reclen hw) 0); [lia|]. rewrite MD. cbn [Z.eqb negb]. destruct (Z.ltb_spec INT32_MAX (Z.of_nat (length data))); [lia|]. eauto. }
  destruct C as (m & ->). cbn [bind]. unfold ship_bytes. rewrite pickle_bytes. cbn [bind]. rewrite ship_node_ok by assumption. cbn [bind]. eauto.
Qed.
Lemma transform_succeeds cd f hs h P p od nodes res r l tf c0 T upd chunk c v w0 w1 o :
  transforms cd f hs h P p od nodes res r l tf (c_hdr c0) T -> 0 < chunk -> open_writer None c v = Ok w0 -> init_writer c v = Ok c0 -> ready c0 -> (forall n, In n l -> packable cd (c_hdr c0) (T n)) ->
  Z.of_nat (length (file w0)) + 2 ^ 31 * Z.of_nat (length l) < 2 ^ 63 ->
  transform_copc cd tf upd od nodes res chunk r p w0 w1 o -> o = Ok tt.
Proof.
  intros (SR & FP & SL & FS & PK & TF) N O IW RD PA SM TR.
  destruct (open_spec _ _ _ O) as (c1 & E1 & CF & _). assert (c1 = c0) as -> by congruence. clear E1.
  destruct (pool_reader cd f hs h P p SR FP) as (r0 & SP & D & RF & CH). unfold transform_copc in TR. rewrite CF in TR. destruct TR as (w2 & bs & LP & _).
  destruct (ready_header _ RD) as (F6 & RB & WH). destruct (open_inv _ _ _ _ O IW RD) as (_ & _ & ST & BI & _).
  set (val := fun n => transform_job cd tf upd (c_hdr c0) (loaded h (P n)) n) in *.
  assert (EV : exists V, forall n, In n l -> val n = Ok (V n)).
  { exists (fun n => match val n with Ok d => d | _ => mkDone [] n 0 None end). intros n I. rewrite Forall_forall in FS. destruct (stored_wf f hs n (proj1 SR) (FS n I)) as (_ & A & B).
    destruct (job_succeeds cd tf upd (c_hdr c0) (loaded h (P n)) n (T n) F6 RB B A (TF n I) (PA n I)) as (d & E). unfold val. now rewrite E. }
  destruct EV as (V & EV).
  destruct (loop_visits _ (store (add_to_copc cd)) r0 (stored_nodes hs) val (fun n M => transform_task_ok cd tf upd _ f hs h P r0 n SR D RF CH PK M) V od nodes res chunk r p _ _ o l SP FS EV SL N LP) as ((calls & rest & PM & EA & _) & _).
  refine (store_succeeds cd (fun d => exists n, In n l /\ d = V n) _ calls w0 [] _ _ _ _ _ _ EA).
  - intros d (n & I & ->). rewrite Forall_forall in FS. destruct (stored_wf f hs n (proj1 SR) (FS n I)) as (_ & A & B). destruct (job_brings cd tf upd (c_hdr c0) _ n (T n) (V n) F6 RB B A (TF n I) (EV n I)) as (B1 & B2 & (data & B3 & B4 & _) & _).
    destruct (stored_facts f hs n (proj1 SR) (FS n I)) as (_ & _ & _ & K1 & K2 & K3). destruct (PA n I) as (C1 & data' & C2 & _ & _ & C3). assert (data' = data) as -> by congruence. rewrite B1, B2, B4. auto.
  - apply Forall_forall. intros d I. assert (J : In d (map V l)) by (eapply Permutation_in; [apply Permutation_sym; exact PM|apply in_or_app; now left]). apply in_map_iff in J as (n & <- & J). eauto.
  - apply BI.
  - destruct BI as (_ & BD & _). unfold file. rewrite BD, app_length, zeros_length. lia.
  - apply Permutation_length in PM. rewrite map_length, app_length in PM. lia.
Qed.
(* the bounds of a transformed file are always in order *)
Lemma fold_min_le l : forall m, fnan m = false -> fle (fold_left (fun m v => if flt v m then v else m) l m) m = true.
Proof.
  induction l as [|b l IH]; intros m M; [now apply fle_refl|]. cbn [fold_left]. destruct (flt b m) eqn:C; [|now apply IH]. assert (B : fnan b = false) by (apply fle_of_lt, fle_not_nan in C; tauto). eapply fle_trans; [now apply IH|now apply fle_of_lt].
Qed.
Lemma fold_max_ge l : forall m, fnan m = false -> fle m (fold_left (fun m v => if fgt v m then v else m) l m) = true.
Proof.
  induction l as [|b l IH]; intros m M; [now apply fle_refl|]. cbn [fold_left]. destruct (fgt b m) eqn:C; [|now apply IH]. unfold fgt in C. assert (B : fnan b = false) by (apply fle_of_lt, fle_not_nan in C; tauto). eapply fle_trans; [apply fle_of_lt; exact C|now apply IH].
Qed.
Lemma nan_lt a v : fnan a = true -> flt v a = false.
Proof. intros N. destruct (flt v a) eqn:C; [|reflexivity]. apply fle_of_lt, fle_not_nan in C as (_ & C). congruence. Qed.
Lemma nan_gt a v : fnan a = true -> fgt v a = false.
Proof. intros N. unfold fgt. destruct (flt a v) eqn:C; [|reflexivity]. apply fle_of_lt, fle_not_nan in C as (C & _). congruence. Qed.
Lemma fold_min_nan l : forall a, fnan a = true -> fold_left (fun m v => if flt v m then v else m) l a = a.
Proof. induction l as [|b l IH]; intros a N; [reflexivity|]. cbn [fold_left]. rewrite nan_lt by exact N. now apply IH. Qed.
Definition in_order2 (a b : f64) : Prop := fnan a = true \/ fle a b = true.
Lemma py_ordered l a b : py_min l = Ok a -> py_max l = Ok b -> in_order2 a b.
Proof.
  destruct l as [|x l]; [discriminate|]. cbn [py_min py_max]. intros A B. assert (A' : fold_left (fun m v => if flt v m then v else m) l x = a) by congruence. assert (B' : fold_left (fun m v => if fgt v m then v else m) l x = b) by congruence. subst. clear.
  destruct (fnan x) eqn:N; [left; rewrite fold_min_nan by exact N; exact N|]. right. eapply fle_trans; [now apply fold_min_le|now apply fold_max_ge].
Qed.
Lemma node_ordered y mn mx : node_bounds y = Ok (mn, mx) -> in_order2 (vx mn) (vx mx) /\ in_order2 (vy mn) (vy mx) /\ in_order2 (vz mn) (vz mx).
Proof.
  unfold node_bounds. intros H. apply bind_ok in H as (xs & _ & H). apply bind_ok in H as (ys & _ & H). apply bind_ok in H as (zs & _ & H).
  apply bind_ok in H as (a & A & H). apply bind_ok in H as (b & B & H). apply bind_ok in H as (c & C & H). apply bind_ok in H as (a' & A' & H). apply bind_ok in H as (b' & B' & H). apply bind_ok in H as (c' & C' & H).
  assert (Q : (mkVec a b c, mkVec a' b' c') = (mn, mx)) by congruence. pose proof (f_equal fst Q) as Q1. pose proof (f_equal snd Q) as Q2. cbn [fst snd] in Q1, Q2. subst mn mx. cbn [vx vy vz]. split; [|split]; eapply py_ordered; eauto.
Qed.
Lemma fle_not_gt a b : fle a b = true -> fgt a b = false.
Proof. intros H. destruct (fle_not_nan _ _ H) as (A & B). unfold fgt. rewrite flt_negb_fle by assumption. now rewrite H. Qed.
Lemma np_ordered (u v : vec3 * vec3 -> f64) l a b : Forall (fun x => in_order2 (u x) (v x)) l -> np_min (map u l) a -> np_max (map v l) b -> fgt a b = false.
Proof.
  intros F A B. unfold np_min, np_max in *. destruct (existsb fnan (map u l)) eqn:EU.
  - destruct (fgt a b) eqn:C; [|reflexivity]. unfold fgt in C. apply fle_of_lt, fle_not_nan in C as (_ & C). congruence.
  - destruct (existsb fnan (map v l)); [now apply nan_gt|]. destruct A as (A1 & A2), B as (B1 & B2). apply in_map_iff in A1 as (x & <- & I). rewrite Forall_forall in F, A2, B2. apply fle_not_gt. destruct (F x I) as [N|L].
    + exfalso. assert (E : existsb fnan (map u l) = true) by (apply existsb_exists; exists (u x); split; [now apply in_map|exact N]). congruence.
    + eapply fle_trans; [exact L|]. apply B2. now apply in_map.
Qed.
Lemma global_ordered l mn mx h : Forall (fun x : vec3 * vec3 => in_order2 (vx (fst x)) (vx (snd x)) /\ in_order2 (vy (fst x)) (vy (snd x)) /\ in_order2 (vz (fst x)) (vz (snd x))) l -> global_bounds l mn mx -> ordered_bounds (with_bounds mn mx h).
Proof.
  intros F G. unfold ordered_bounds. cbn [with_bounds h_min h_max]. destruct l as [|x l]; [destruct G as (-> & ->); repeat split; reflexivity|]. destruct G as (G1 & G2 & G3 & G4 & G5 & G6). rewrite !map_map in G1, G2, G3, G4, G5, G6.
  split; [|split]; [eapply (np_ordered (fun x => vx (fst x)) (fun x => vx (snd x))); [|exact G1|exact G4]|eapply (np_ordered (fun x => vy (fst x)) (fun x => vy (snd x))); [|exact G2|exact G5]|eapply (np_ordered (fun x => vz (fst x)) (fun x => vz (snd x))); [|exact G3|exact G6]];
    (eapply Forall_impl; [|exact F]; cbv beta; tauto).
Qed.
Lemma page_octree f hs n : copc_pages f hs -> stored_nodes hs n -> in_octree (n_page n).
Proof.
  intros S (i & e & I & _ & E & _ & K & N). subst n. cbn [n_page]. apply child_of_root_octree. eapply (ProofReader.page_in_root f _ _ hs (ProofReader3.hierarchy_tree _ _ _ _ S)); eauto.
Qed.
Lemma closing_succeeds cd f hs h P p od nodes res r l tf c0 T upd chunk c v w0 w1 wod w o' :
  transforms cd f hs h P p od nodes res r l tf (c_hdr c0) T -> 0 < chunk -> open_writer None c v = Ok w0 -> init_writer c v = Ok c0 -> ready c0 -> reorders wod -> Z.of_nat (length l) < 2 ^ 25 - 1 ->
  (upd = false -> ordered_bounds (c_hdr c0)) -> transform_copc cd tf upd od nodes res chunk r p w0 w1 (Ok tt) -> close cd wod w1 = (w, o') -> Z.of_nat (length (file w)) < 2 ^ 64 -> o' = Ok tt.
Proof.
  intros TR N O IW RD RO LL OB TC CL FL. destruct (transform_ran _ _ _ _ _ _ _ _ _ _ _ _ _ _ _ _ _ _ _ _ TR N O IW RD TC) as (ops & lg & adds & ds & l' & (WALL & WF & AD & ST & PO & TG) & LN & PL & FB & AO & MF & IN & VW & HW & HE & HX & HH).
  refine (ProofCount.close_succeeds cd wod c v c0 ops w0 w1 lg w o' IW RD WF RO O WALL AD _ _ _ CL FL).
  - intros op x q I G. destruct (TG op x q I G) as (n & M & <-). destruct TR as (SR & _ & _ & FS & _). rewrite Forall_forall in FS. eapply page_octree; [exact (proj1 SR)|auto].
  - lia.
  - destruct upd; [|rewrite HH; now apply OB]. destruct HH as (mn & mx & G & ->). eapply global_ordered; [|exact G]. clear - FB. apply Forall_forall. intros b I. unfold bounds_of in I. apply in_flat_map in I as (d & D & I). unfold stored_ones in D. apply filter_In in D as (D & C).
    assert (X : exists n, brings cd true (c_hdr c0) (T n) n d). { clear - FB D. induction FB as [|m e l' ds J F IH]; [destruct D|]. destruct D as [->|D]; eauto. }
    destruct X as (n & _ & _ & _ & B). rewrite C in B. cbn [andb] in B. destruct B as ((mn, mx) & B & E). rewrite E in I. destruct I as [<-|[]]. exact (node_ordered _ _ _ B).
Qed.
