(* ProofMp3.v - transforming with a process pool into a COPC file *)
From Coq Require Import Permutation.
From Verif Require Import Base BaseFacts ModelFloat ModelKey ModelGeom ModelEntry ModelPoint ModelPoints ModelHeader ModelVlr ModelExtents ModelConfig
  ModelStream ModelWriter ModelReader ModelPickle ModelMp SpecKey SpecPoint SpecPoints SpecConfig SpecWriter SpecHier SpecFile SpecReader SpecData SpecRound SpecMp
  ProofKey ProofPickle ProofPoint ProofPoints ProofConfig ProofWriter ProofWriter2 ProofWriter4 ProofClose2 ProofSession ProofResults ProofReject ProofData ProofReader4 ProofReader6 ProofOpen ProofRound ProofMp ProofMp2.
Open Scope Z_scope.

Lemma ship_header_ok h : picklable h -> ship_header h = Ok h.
Proof. intros (A & B & C & D & E & F & G). unfold ship_header. destruct (pickle_header h) as (st & S1 & S2); auto. rewrite S1. exact S2. Qed.
Lemma transform_task_ok cd tf upd hw f hs h P r0 n : source cd f hs h P -> r_data r0 = f -> r_fail r0 = false -> c_hdr (r_cfg r0) = h -> picklable hw -> stored_nodes hs n ->
  transform_task cd tf upd hw n r0 = (r0, transform_job cd tf upd hw (loaded h (P n)) n).
Proof.
  intros S D F H PK N. unfold transform_task. rewrite (stored_ship f hs n (proj1 S) N). cbn [bind]. rewrite (ship_header_ok _ PK). cbn [bind]. now rewrite (stored_read cd f hs h P r0 n S D F H N).
Qed.
(* what a finished task brings back *)
Definition brings (cd : codec) (upd : bool) (hw : las_header) (y : node_data) (n : node) (d : done) : Prop :=
  dn_node d = n /\ dn_count d = Z.of_nat (length (c_pts (snd y))) /\
  (exists data, points_pack (fst y) (snd y) (h_scale hw) (h_offset hw) = Ok data /\ dn_data d = cd_comp cd (h_fmt hw) (h_reclen hw - las_base (h_fmt hw)) data /\ Z.of_nat (length data) <= INT32_MAX) /\
  (if upd && (0 <? dn_count d) then exists b, node_bounds y = Ok b /\ dn_bounds d = Some b else dn_bounds d = None).
Lemma eb_size_is h : 6 <= h_fmt h <= 8 -> las_base (h_fmt h) <= h_reclen h < 65536 -> h_eb_size h = Ok (h_reclen h - las_base (h_fmt h)).
Proof. intros F R. apply eb_size_ok; auto. lia. Qed.
Lemma job_brings cd tf upd hw x n y d : 6 <= h_fmt hw <= 8 -> las_base (h_fmt hw) <= h_reclen hw < 65536 -> wf_entry (n_entry n) = true -> wf_key (n_page n) = true ->
  tf x n hw = Ok y -> transform_job cd tf upd hw x n = Ok d -> brings cd upd hw y n d.
Proof.
  intros F R W1 W2 TY J. unfold transform_job in J. rewrite TY in J. cbn [bind] in J. cbv zeta in J. apply bind_ok in J as (bo & B & J). apply bind_ok in J as (data & PK & J).
  rewrite eb_size_is in J by auto. cbn [bind] in J. apply bind_ok in J as ((x1, cnt) & C & J). cbn [bind] in J. unfold ship_bytes in J. rewrite pickle_bytes in J. cbn [bind] in J. rewrite ship_node_ok in J by assumption. cbn [bind] in J.
  injection J as <-. unfold brings. cbn [dn_node dn_count dn_data dn_bounds]. split; [reflexivity|]. split; [reflexivity|]. split.
  - exists data. split; [exact PK|]. unfold compress_bytes in C. apply bind_ok in C as (sz & _ & C). cbv zeta in C. destruct (sz =? 0); [discriminate|]. destruct (negb _); [discriminate|]. destruct (Z.ltb_spec INT32_MAX (Z.of_nat (length data))); [discriminate|].
    pose proof (f_equal (fun o : outcome (bytes * Z) => match o with Ok (a, _) => a | _ => [] end) C) as C'. cbv beta iota in C'. split; [now symmetry|assumption].
  - destruct (upd && (0 <? _)).
    + apply bind_ok in B as (b & B1 & B2). injection B2 as <-. eauto.
    + now injection B as <-.
Qed.

(* ---- storing the results ---- *)
Definition add_op (d : done) : wop := WAddCompressed (n_key (dn_node d)) (dn_data d) (dn_count d) (n_page (dn_node d)).
Definition stored_ones (ds : list done) : list done := filter (fun d => 0 <? dn_count d) ds.
Definition bounds_of (ds : list done) : list (vec3 * vec3) := flat_map (fun d => opt_list (dn_bounds d)) (stored_ones ds).
Lemma store_run cd : forall ds w bs w' bs', each (store (add_to_copc cd)) ds (w, bs) = ((w', bs'), Ok tt) ->
  bs' = bs ++ bounds_of ds /\ w_cfg w' = w_cfg w /\ exists lg, wrun cd (map add_op (stored_ones ds)) w = (w', lg) /\ Forall (fun x => exists n, snd x = Ok (Some n)) lg /\ Forall (fun d => dn_count d <= INT32_MAX) (stored_ones ds).
Proof.
  induction ds as [|d ds IH]; intros w bs w' bs' H.
  - cbn [each] in H. injection H as <- <-. unfold bounds_of. cbn. rewrite app_nil_r. split; [reflexivity|]. split; [reflexivity|]. exists []. auto.
  - cbn [each] in H. unfold then_ in H. unfold store at 1 in H. unfold bounds_of, stored_ones. cbn [filter]. destruct (0 <? dn_count d) eqn:C.
    + cbn [fst snd] in H. unfold add_to_copc in H at 1. destruct (Z.ltb_spec INT32_MAX (dn_count d)); [discriminate|].
      destruct (add_node_compressed cd (n_key (dn_node d)) (dn_data d) (dn_count d) (n_page (dn_node d)) w) as (w1, [n| |]) eqn:A; try discriminate.
      destruct (IH _ _ _ _ H) as (B1 & B2 & lg & B3 & B4 & B5). cbn [map flat_map]. split; [|split].
      * rewrite B1. unfold bounds_of, stored_ones. destruct (dn_bounds d); cbn [opt_list app]; [now rewrite <- app_assoc|reflexivity].
      * rewrite B2. unfold add_node_compressed in A. destruct (dn_count d =? 0); [discriminate|]. unfold do_add_node in A. destruct (negb _ || negb _); [discriminate|]. destruct (negb _); [discriminate|].
        destruct (write_chunk _ _ _ _ _ _) as (b, [((off, size), m)| |]); try discriminate. injection A as <- _. reflexivity.
      * exists ((add_op d, Ok (Some n)) :: lg). cbn [wrun wstep add_op]. fold (add_op d). rewrite A. cbn [some_node]. fold (stored_ones ds). rewrite B3. split; [reflexivity|]. split; constructor; auto. cbn [snd]. eauto.
    + destruct (IH _ _ _ _ H) as (B1 & B2 & B3). unfold bounds_of, stored_ones in *. auto.
Qed.
(* the last step: new bounds *)
Lemma bounds_step cd mn mx w : (length (h_guid (c_hdr (w_cfg w))) <= 16)%nat -> (length (h_sys (c_hdr (w_cfg w))) <= 32)%nat -> (length (h_gen (c_hdr (w_cfg w))) <= 32)%nat ->
  wstep cd (WSetHeader (with_bounds mn mx (c_hdr (w_cfg w)))) w = (copc_bounds mn mx w, Ok None).
Proof.
  intros A B C. cbn [wstep]. assert (E : edit_header (c_hdr (w_cfg w)) (with_bounds mn mx (c_hdr (w_cfg w))) = Ok (with_bounds mn mx (c_hdr (w_cfg w)))); [|now rewrite E].
  destruct (c_hdr (w_cfg w)) as [a1 a2 a3 a4 a5 a6 a7 a8 a9 a10 a11 a12 a13 a14 a15 a16 a17 a18 a19 a20] eqn:H. unfold with_bounds. cbn [h_src h_enc h_day h_year h_max h_min h_pbr h_scale h_offset h_fmt h_reclen h_pcount h_poff h_vlrs h_evoff h_evcnt h_guid h_sys h_gen h_copc] in *.
  unfold edit_header, set_guid, set_system_identifier, set_generating_software, with_strings. cbn [h_src h_enc h_day h_year h_max h_min h_pbr h_scale h_offset h_fmt h_reclen h_pcount h_poff h_vlrs h_evoff h_evcnt h_guid h_sys h_gen h_copc] in *.
  destruct (Nat.ltb_spec 16 (length a17)); [lia|]. destruct (Nat.ltb_spec 32 (length a18)); [lia|]. destruct (Nat.ltb_spec 32 (length a19)); [lia|]. reflexivity.
Qed.
(* ---- what the log of the additions says ---- *)
Definition same_key_same_op (ops : list wop) : Prop := forall d e k p x y a b q, In d ops -> In e ops -> d = WAddCompressed k x a p -> e = WAddCompressed k y b q -> d = e.
Definition adds_only (lg : log) : Prop := Forall (fun x => exists k y a p n, x = (WAddCompressed k y a p, Ok (Some n))) lg.
Lemma view_adds : forall lg v k, adds_only lg ->
  (fold_left see lg v k = v k /\ forall y a p o, ~ In (WAddCompressed k y a p, o) lg) \/
  exists y a p n, In (WAddCompressed k y a p, Ok (Some n)) lg /\ fold_left see lg v k = Some (n, p).
Proof.
  induction lg as [|x lg IH]; intros v k A; [left; split; [reflexivity|auto]|]. pose proof (Forall_inv A) as (k1 & y & a & p & n & ->). apply Forall_inv_tail in A. cbn [fold_left see].
  destruct (IH (set_view k1 (n, p) v) k A) as [(E & NI)|(y' & a' & p' & n' & I & E)].
  - rewrite E. unfold set_view. destruct (key_eqb k1 k) eqn:K.
    + right. apply key_eqb_eq in K. subst k1. exists y, a, p, n. split; [now left|reflexivity].
    + left. split; [reflexivity|]. intros y' a' p' o [Q|Q]; [|now apply (NI y' a' p' o)]. injection Q as -> _ _ _ _. rewrite key_eqb_refl in K. discriminate.
  - right. exists y', a', p', n'. split; [now right|exact E].
Qed.
Lemma settled_adds : forall lg v, adds_only lg -> (forall k p x a o n q, In (WAddCompressed k x a p, o) lg -> v k = Some (n, q) -> q = p) ->
  (forall k p x a o p' x' a' o', In (WAddCompressed k x a p, o) lg -> In (WAddCompressed k x' a' p', o') lg -> p = p') -> settled_from v lg.
Proof.
  induction lg as [|x lg IH]; intros v A V S; [exact I|]. pose proof (Forall_inv A) as (k1 & y & a & p & n & ->). apply Forall_inv_tail in A. cbn [settled_from]. split.
  - cbn [calm]. intros n0 q E. eapply V; [now left|exact E].
  - apply IH; [exact A| |].
    + intros k q x b o m r I E. cbn [see] in E. unfold set_view in E. destruct (key_eqb k1 k) eqn:K.
      * apply key_eqb_eq in K. subst k1. injection E as <- <-. eapply S; [now left|right; exact I].
      * eapply V; [right; exact I|exact E].
    + intros. eapply S; [right; eassumption|right; eassumption].
Qed.
Lemma map_Ok_Forall2 {A B} (val : A -> outcome B) : forall l ds, map val l = map Ok ds -> Forall2 (fun a b => val a = Ok b) l ds.
Proof. induction l as [|a l IH]; intros [|b ds] E; try discriminate; [constructor|]. cbn [map] in E. injection E as E1 E2. constructor; auto. Qed.
Lemma loop_ok {B St} (task : node -> reader -> reader * outcome B) (step : B -> St -> St * outcome unit) r0 (ok : node -> Prop) val od nodes res chunk r p s s' l :
  (forall n, ok n -> task n r0 = (r0, val n)) -> same_pool r0 p -> Forall ok l -> selects od nodes res r l -> 0 < chunk -> mp_loop task step od nodes res chunk r p s s' (Ok tt) ->
  exists l' ds, Permutation l l' /\ Forall2 (fun n d => val n = Ok d) l' ds /\ each step ds s = (s', Ok tt).
Proof.
  intros T SP F SL N H. destruct (loop_chunks _ _ _ _ _ _ _ _ _ _ _ _ SL N H) as (cs & _ & (EC & _) & R).
  destruct (mp_run_spec task step r0 val ok T cs p s s' (Ok tt) R SP) as (_ & SG); [now rewrite EC|]. destruct (SG eq_refl) as (segs & G1 & G2).
  assert (P : Permutation (map val l) (map Ok (concat segs))). { rewrite <- EC. clear - G1. induction G1 as [|c seg cs segs P G IH]; [constructor|]. cbn [concat]. rewrite !map_app. now apply Permutation_app. }
  apply perm_map_pre in P as (l' & P & E). exists l', (concat segs). split; [exact P|]. split; [|exact G2]. apply map_Ok_Forall2. now symmetry.
Qed.
Lemma wf_key_int32 k : wf_key k = true -> int32_key k.
Proof. unfold wf_key, int32_key, i32, in_range, INT32_MIN, INT32_MAX. intros H. repeat (apply andb_prop in H as (H & ?)). lia. Qed.
Lemma wf_with_bounds mn mx h : wf_hdr h -> wf_hdr (with_bounds mn mx h).
Proof. intros W. exact W. Qed.
Lemma stored_wf f hs n : copc_pages f hs -> stored_nodes hs n -> wf_key (n_key n) = true /\ wf_key (n_page n) = true /\ wf_entry (n_entry n) = true.
Proof.
  intros S N. destruct (stored_facts f hs n S N) as (_ & W & WP & _). split; [|auto]. unfold wf_entry in W. apply andb_prop in W as (W & _). apply andb_prop in W as (W & _). now apply andb_prop in W as (? & _).
Qed.
Lemma stored_unique f hs n m : copc_pages f hs -> stored_nodes hs n -> stored_nodes hs m -> n_key n = n_key m -> n = m.
Proof.
  intros S N M K. unfold stored_nodes in *. rewrite <- K in M. eapply (ProofReader2.stored_unique f _ _ hs (ProofReader3.hierarchy_tree _ _ _ _ S)); eauto.
Qed.
Lemma ready_header c : ready c -> 6 <= h_fmt (c_hdr c) <= 8 /\ las_base (h_fmt (c_hdr c)) <= h_reclen (c_hdr c) < 65536 /\ wf_hdr (c_hdr c).
Proof.
  intros R. pose proof (ready_ok _ R) as (_ & F & _ & _ & TY & RL & W & _ & WE). pose proof (ProofConfig.eb_total_nonneg (c_ebs c) WE TY). split; [exact F|]. split; [|exact W]. destruct W as (_ & _ & _ & _ & _ & _ & _ & Q & _). lia.
Qed.
Lemma session_cfg cd od c v c0 ops l w w0 w1 : complete_session cd od c v c0 ops l w -> open_writer None c v = Ok w0 -> wrun cd ops w0 = (w1, l) ->
  c_hdr (w_cfg w) = c_hdr (w_cfg w1) /\ c_wkt (w_cfg w) = c_wkt (w_cfg w1) /\ c_ebs (w_cfg w) = c_ebs (w_cfg w1) /\ c_exts (w_cfg w) = c_exts (w_cfg w1).
Proof.
  intros S O R. destruct (complete_closed _ _ _ _ _ _ _ _ S) as (w0' & w1' & cs & PG & ws & h & O' & R' & _ & C & _). rewrite O in O'. injection O' as <-. rewrite R in R'. injection R' as <-.
  rewrite (cl_cfg _ _ _ _ _ _ _ _ C). apply cfg_with_parts.
Qed.
Lemma adds_of_log ds : forall lg, map fst lg = map add_op ds -> Forall (fun x : wop * outcome (option node) => exists n, snd x = Ok (Some n)) lg -> adds_only lg.
Proof.
  induction ds as [|d ds IH]; intros [|x lg] E F; try discriminate; [constructor|]. cbn [map] in E. injection E as E1 E2. pose proof (Forall_inv F) as (n & Q). constructor; [|apply IH; [exact E2|now apply Forall_inv_tail in F]].
  destruct x as (op, o). cbn [fst snd] in *. subst. unfold add_op. do 4 eexists. eexists. reflexivity.
Qed.
Lemma transform_ran cd f hs h P p od nodes res r l tf c0 T upd chunk c v w0 w1 :
  transforms cd f hs h P p od nodes res r l tf (c_hdr c0) T -> 0 < chunk -> open_writer None c v = Ok w0 -> init_writer c v = Ok c0 -> ready c0 -> transform_copc cd tf upd od nodes res chunk r p w0 w1 (Ok tt) ->
  exists ops lg adds ds l', (wrun cd ops w0 = (w1, lg) /\ Forall wf_op ops /\ all_defined lg /\ settled lg /\ Forall positive ops /\ (forall op x q, In (op, Ok x) lg -> target_page op = Some q -> exists n, In n l /\ n_page n = q)) /\
    (length ops <= Datatypes.S (length l))%nat /\ Permutation l l' /\ Forall2 (fun n d => brings cd upd (c_hdr c0) (T n) n d) l' ds /\
    adds_only adds /\ map fst adds = map add_op (stored_ones ds) /\ incl adds lg /\ (forall k, view_of lg k = view_of adds k) /\
    c_wkt (w_cfg w1) = c_wkt c0 /\ c_ebs (w_cfg w1) = c_ebs c0 /\ c_exts (w_cfg w1) = c_exts c0 /\
    if upd then exists mn mx, global_bounds (bounds_of ds) mn mx /\ c_hdr (w_cfg w1) = with_bounds mn mx (c_hdr c0) else c_hdr (w_cfg w1) = c_hdr c0.
Proof.
  intros (SR & FP & SL & FS & PK & TF) N O IW RD TR.
  destruct (open_spec _ _ _ O) as (c1 & E1 & CF & _). assert (c1 = c0) as -> by congruence. clear E1.
  destruct (pool_reader cd f hs h P p SR FP) as (r0 & SP & D & RF & CH). unfold transform_copc in TR. rewrite CF in TR. destruct TR as (w2 & bs & LP & END).
  destruct (loop_ok _ _ r0 (stored_nodes hs) (fun n => transform_job cd tf upd (c_hdr c0) (loaded h (P n)) n) _ _ _ _ _ _ _ _ _ (fun n M => transform_task_ok cd tf upd _ f hs h P r0 n SR D RF CH PK M) SP FS SL N LP) as (l' & ds & PL & FD & EA).
  destruct (store_run _ _ _ _ _ _ EA) as (BS & CF2 & adds & WR & OKS & CNT). cbn [app] in BS.
  destruct (ready_header _ RD) as (F6 & RB & WH).
  assert (FB : Forall2 (fun n d => brings cd upd (c_hdr c0) (T n) n d) l' ds).
  { assert (IN : forall n, In n l' -> In n l) by (intros n I; eapply Permutation_in; [apply Permutation_sym; exact PL|exact I]). clear - FD IN FS TF F6 RB SR. induction FD as [|n d l' ds J FD IH]; [constructor|]. constructor; [|apply IH; intros m M; apply IN; now right].
    assert (I : In n l) by (apply IN; now left). rewrite Forall_forall in FS. destruct (stored_wf f hs n (proj1 SR) (FS n I)) as (_ & A & B). exact (job_brings cd tf upd (c_hdr c0) _ n (T n) d F6 RB B A (TF n I) J). }
  assert (AD : all_defined adds) by (clear - OKS; induction OKS as [|x lg (n & Q) _ IH]; constructor; [rewrite Q; discriminate|exact IH]).
  pose proof (wrun_ops _ _ _ _ _ WR AD) as MF. pose proof (adds_of_log _ _ MF OKS) as AO.
  assert (SD : forall d, In d (stored_ones ds) -> exists n, In n l /\ dn_node d = n /\ 0 < dn_count d <= INT32_MAX /\ brings cd upd (c_hdr c0) (T n) n d).
  { intros d I. rewrite Forall_forall in CNT. pose proof (CNT d I) as C1. unfold stored_ones in I. apply filter_In in I as (I & C2). apply Z.ltb_lt in C2.
    assert (X : exists n, In n l' /\ brings cd upd (c_hdr c0) (T n) n d). { clear - FB I. induction FB as [|n e l' ds J FB IH]; [destruct I|]. destruct I as [->|I]; [exists n; split; [now left|exact J]|]. destruct (IH I) as (m & M & Q). exists m. split; [now right|exact Q]. }
    destruct X as (n & M & B). exists n. split; [eapply Permutation_in; [apply Permutation_sym; exact PL|exact M]|]. split; [apply B|]. auto. }
  assert (TAIL : exists tail tl, wrun cd tail w2 = (w1, tl) /\ ((tail = [] /\ tl = []) \/ exists hh, wf_hdr hh /\ tail = [WSetHeader hh] /\ tl = [(WSetHeader hh, Ok None)]) /\
    c_wkt (w_cfg w1) = c_wkt c0 /\ c_ebs (w_cfg w1) = c_ebs c0 /\ c_exts (w_cfg w1) = c_exts c0 /\
    if upd then exists mn mx, global_bounds (bounds_of ds) mn mx /\ c_hdr (w_cfg w1) = with_bounds mn mx (c_hdr c0) else c_hdr (w_cfg w1) = c_hdr c0).
  { rewrite CF in CF2. destruct upd.
    - destruct END as (mn & mx & GB & ->). destruct PK as (_ & LG & LS & LN & _). exists [WSetHeader (with_bounds mn mx (c_hdr (w_cfg w2)))], [(WSetHeader (with_bounds mn mx (c_hdr (w_cfg w2))), Ok None)].
      split; [cbn [wrun]; rewrite bounds_step by (rewrite CF2; assumption); reflexivity|]. split; [right; eexists; split; [|split; reflexivity]; rewrite CF2; now apply wf_with_bounds|].
      unfold copc_bounds. cbn [with_cfg w_cfg c_hdr c_wkt c_ebs c_exts]. rewrite CF2. split; [reflexivity|]. split; [reflexivity|]. split; [reflexivity|]. exists mn, mx. rewrite <- BS. auto.
    - subst w1. exists [], []. split; [reflexivity|]. split; [auto|]. rewrite CF2. auto. }
  destruct TAIL as (tail & tl & WT & TT & HW & HE & HX & HH). exists (map add_op (stored_ones ds) ++ tail), (adds ++ tl), adds, ds, l'.
  assert (WALL : wrun cd (map add_op (stored_ones ds) ++ tail) w0 = (w1, adds ++ tl)) by (rewrite (wrun_app _ _ _ _ _ _ WR AD), WT; reflexivity).
  assert (VW : forall k, view_of (adds ++ tl) k = view_of adds k). { intros k. unfold view_of. rewrite fold_left_app. destruct TT as [(_ & ->)|(hh & _ & _ & ->)]; reflexivity. }
  split; [|split; [|split; [exact PL|split; [exact FB|split; [exact AO|split; [exact MF|split; [intros x I; apply in_or_app; now left|split; [exact VW|]]]]]]]].
  - split; [exact WALL|]. split; [|split; [|split; [|split]]].
    + apply Forall_app. split.
      * apply Forall_forall. intros op I. apply in_map_iff in I as (d & <- & I). destruct (SD d I) as (n & M & E & C & _). rewrite Forall_forall in FS. destruct (stored_wf f hs n (proj1 SR) (FS n M)) as (K1 & K2 & _).
        unfold add_op. rewrite E. cbn [wf_op]. split; [now apply wf_key_int32|]. split; [now apply wf_key_int32|]. unfold INT32_MAX in C. lia.
      * destruct TT as [(-> & _)|(hh & WF & -> & _)]; constructor; auto.
    + unfold all_defined. apply Forall_app. split; [exact AD|]. destruct TT as [(_ & ->)|(hh & _ & _ & ->)]; constructor; [discriminate|constructor].
    + assert (ST : settled adds).
      { apply settled_adds; [exact AO|discriminate|]. intros k q x a o q' x' a' o' I J. apply (in_map fst) in I, J. rewrite MF in I, J. apply in_map_iff in I as (d & E & I), J as (d' & E' & J). cbn [fst] in E, E'. unfold add_op in E, E'. injection E as K1 _ _ P1. injection E' as K2 _ _ P2.
        destruct (SD d I) as (n & M & EN & _), (SD d' J) as (n' & M' & EN' & _). rewrite Forall_forall in FS. rewrite EN in *. rewrite EN' in *. rewrite <- P1, <- P2. f_equal. eapply stored_unique; [exact (proj1 SR)|auto|auto|congruence]. }
      clear - ST TT. assert (G : forall v, settled_from v adds -> settled_from v (adds ++ tl)); [|now apply G]. clear ST. induction adds as [|x a IH]; intros v Q; cbn [app settled_from] in *; [destruct TT as [(_ & ->)|(hh & _ & _ & ->)]; cbn; auto|]. destruct Q. auto.
    + apply Forall_app. split; [|destruct TT as [(-> & _)|(hh & _ & -> & _)]; repeat constructor]. apply Forall_forall. intros op I. apply in_map_iff in I as (d & <- & I). destruct (SD d I) as (n & _ & _ & C & _). cbn. lia.
    + intros op x q I TG. apply in_app_or in I as [I|I]; [|exfalso; destruct TT as [(_ & ->)|(hh & _ & _ & ->)]; [destruct I|destruct I as [I|[]]; injection I as <- _; discriminate]].
      apply (in_map fst) in I. rewrite MF in I. apply in_map_iff in I as (d & E & I). cbn [fst] in E. subst op. unfold add_op in TG. cbn [target_page] in TG. destruct (SD d I) as (n & M & EN & _). exists n. split; [exact M|]. rewrite <- EN. congruence.
  - rewrite app_length, map_length. assert (L1 : (length (stored_ones ds) <= length ds)%nat) by (clear; unfold stored_ones; induction ds as [|d ds IH]; cbn [filter length]; [lia|destruct (0 <? dn_count d); cbn [length]; lia]).
    assert (L2 : length ds = length l). { apply Permutation_length in PL. rewrite PL. clear - FD. induction FD; cbn [length]; congruence. }
    assert (L3 : (length tail <= 1)%nat) by (destruct TT as [(-> & _)|(hh & _ & -> & _)]; cbn; lia). lia.
  - auto.
Qed.
Lemma transform_written cd f hs h P p od nodes res r l tf c0 T upd chunk c v w :
  transforms cd f hs h P p od nodes res r l tf (c_hdr c0) T -> 0 < chunk -> transform_program cd tf upd od nodes res chunk r p c v c0 w ->
  exists ops lg adds ds l', written cd c0 ops lg w /\ (length ops <= Datatypes.S (length l))%nat /\ Permutation l l' /\ Forall2 (fun n d => brings cd upd (c_hdr c0) (T n) n d) l' ds /\
    adds_only adds /\ map fst adds = map add_op (stored_ones ds) /\ incl adds lg /\ (forall k, view_of lg k = view_of adds k) /\
    c_wkt (w_cfg w) = c_wkt c0 /\ c_ebs (w_cfg w) = c_ebs c0 /\ c_exts (w_cfg w) = c_exts c0 /\
    if upd then exists mn mx, global_bounds (bounds_of ds) mn mx /\ c_hdr (w_cfg w) = with_bounds mn mx (c_hdr c0) else c_hdr (w_cfg w) = c_hdr c0.
Proof.
  intros TR N (w0 & w1 & wod & O & IW & RD & RO & TC & CL & FL). destruct (transform_ran _ _ _ _ _ _ _ _ _ _ _ _ _ _ _ _ _ _ _ _ TR N O IW RD TC) as (ops & lg & adds & ds & l' & (WALL & WF & AD & ST & PO & _) & LN & PL & FB & AO & MF & IN & VW & HW & HE & HX & HH).
  assert (CS : complete_session cd wod c v c0 ops lg w) by (split; [exists w0, w1; auto|]; split; [exact IW|]; split; [exact RD|]; split; [exact WF|]; split; [exact RO|]; split; [exact AD|lia]).
  destruct (session_cfg _ _ _ _ _ _ _ _ _ _ CS O WALL) as (Q1 & Q2 & Q3 & Q4). exists ops, lg, adds, ds, l'. split; [split; [eauto|]; split; [exact ST|]; split; [exact PO|exact FL]|]. rewrite Q1, Q2, Q3, Q4. auto 20.
Qed.
