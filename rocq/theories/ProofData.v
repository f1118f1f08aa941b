(* ProofData.v - node data, point queries *)
From Coq Require Import Permutation.
From Verif Require Import Base BaseFacts ModelFloat ModelKey ModelGeom ModelEntry ModelPoint ModelPoints ModelHeader ModelVlr ModelExtents ModelConfig
  ModelStream ModelWriter ModelReader SpecKey SpecPoint SpecPoints SpecGeom SpecWriter SpecHier SpecReader SpecData
  ProofKey ProofFloat ProofGeom ProofPoint ProofPoints ProofPoints2 ProofExtents ProofReader ProofReader3 ProofReader6.
Open Scope Z_scope.

(* ---- single nodes ---- *)
Lemma eb_size_ok h : 6 <= h_fmt h <= 8 -> las_base (h_fmt h) <= h_reclen h <= 65535 -> h_eb_size h = Ok (h_reclen h - las_base (h_fmt h)).
Proof. intros F R. unfold h_eb_size, eb_byte_size. rewrite las_base_ok by exact F. cbn [bind]. rewrite to_u_id; [reflexivity|lia|]. pose proof (las_base_range (h_fmt h)). lia. Qed.
Lemma seek_stays off r : r_fail r = false -> 0 <= off <= Z.of_nat (length (r_data r)) -> Z.of_nat (length (r_data r)) < 2 ^ 63 -> seek off r = r.
Proof.
  intros F O L. unfold seek. rewrite F. unfold seek_fails. replace (to_s 64 off) with off.
  - replace (off <? 0) with false by lia. replace (Z.of_nat (length (r_data r)) <? off) with false by lia. rewrite andb_false_r. destruct r; cbn in *. now rewrite F.
  - symmetry. apply to_s_id; lia.
Qed.
Lemma data_ok cd f n data r : r_data r = f -> r_fail r = false -> Z.of_nat (length f) < 2 ^ 63 -> node_valid n = true -> holds_records cd (c_hdr (r_cfg r)) f n data ->
  get_point_data_node cd n r = (r, Ok data).
Proof.
  intros D F L V (H1 & H2 & H3 & H4 & H5 & H6 & H7). pose proof (las_base_range (h_fmt (c_hdr (r_cfg r)))) as LB. unfold get_point_data_node. rewrite V. cbn [negb].
  rewrite seek_stays by (rewrite ?D; auto; lia). rewrite eb_size_ok by (auto; lia). unfold decompress_node. rewrite las_base_ok by auto.
  assert (W : with_fail false r = r) by (destruct r; cbn in *; now rewrite F). rewrite W.
  destruct (Z.leb_spec (e_count (n_entry n)) 0).
  - assert (data = []) as -> by (destruct data as [|x data]; [reflexivity|]; exfalso; replace (e_count (n_entry n)) with 0 in H6 by lia; cbn [length] in H6; lia). reflexivity.
  - destruct (Z.ltb_spec 255 (las_base (h_fmt (c_hdr (r_cfg r))) + (h_reclen (c_hdr (r_cfg r)) - las_base (h_fmt (c_hdr (r_cfg r)))))); [lia|].
    rewrite F. unfold rest_at. rewrite F, D, H7 by lia. reflexivity.
Qed.
Lemma unpack_decodes h hp data : 6 <= h_fmt h <= 8 -> las_base (h_fmt h) <= h_reclen h <= 65535 -> wf_bytes data -> 
  forall n, Z.of_nat (length data) = n * h_reclen h -> n <= INT32_MAX ->
  exists ps, decodes_to h data ps /\ unpack_with hp data h = Ok (hp ++ ps, mkPoints (h_fmt h) (h_reclen h) (seq (length hp) (length ps))) /\
    Forall (fun p => p_fmt p = h_fmt h /\ p_reclen p = h_reclen h) ps.
Proof.
  intros F R W n L N. pose proof (las_base_range (h_fmt h)) as LB. unfold unpack_with. rewrite eb_size_ok by auto. cbn [bind].
  destruct (points_unpack_ok hp data (h_fmt h) (h_reclen h - las_base (h_fmt h)) (h_scale h) (h_offset h)) as (ps & E & LP & _ & FP & NP & _); auto; try lia;
    replace (las_base (h_fmt h) + (h_reclen h - las_base (h_fmt h))) with (h_reclen h) in * by lia.
  { rewrite L. apply Z_mod_mult. } { rewrite L, Z.div_mul by lia. exact N. }
  exists ps. rewrite L, Z.div_mul in LP by lia. split; [split|split].
  - rewrite LP, L, Z2Nat.id by nia. reflexivity.
  - intros i p P. eexists. exact (NP i p P).
  - rewrite E. rewrite L, Z.div_mul, LP by lia. reflexivity.
  - exact FP.
Qed.
Lemma decodes_unique h data ps ps' : 0 < h_reclen h -> decodes_to h data ps -> decodes_to h data ps' -> ps = ps'.
Proof.
  intros R (L & D) (L' & D'). assert (LE : length ps = length ps') by (assert (Z.of_nat (length ps) = Z.of_nat (length ps')) by (apply (Z.mul_cancel_r _ _ (h_reclen h)); lia); lia).
  apply nth_error_ext. intros i. destruct (nth_error ps i) as [p|] eqn:P, (nth_error ps' i) as [q|] eqn:Q; try reflexivity.
  - destruct (D _ _ P) as (x & X), (D' _ _ Q) as (y & Y). rewrite X in Y. now injection Y as -> _.
  - apply nth_error_None in Q. assert (nth_error ps i <> None) as N by congruence. apply nth_error_Some in N. lia.
  - apply nth_error_None in P. assert (nth_error ps' i <> None) as N by congruence. apply nth_error_Some in N. lia.
Qed.
Lemma points_ok cd f n ps r hp : r_data r = f -> r_fail r = false -> Z.of_nat (length f) < 2 ^ 63 -> node_valid n = true -> node_points cd (c_hdr (r_cfg r)) f n ps ->
  get_points_node cd hp n r = (r, Ok (hp ++ ps, mkPoints (h_fmt (c_hdr (r_cfg r))) (h_reclen (c_hdr (r_cfg r))) (seq (length hp) (length ps)))) /\
  Forall (fun p => p_fmt p = h_fmt (c_hdr (r_cfg r)) /\ p_reclen p = h_reclen (c_hdr (r_cfg r))) ps.
Proof.
  intros D F L V (data & H & DC). unfold get_points_node. rewrite (data_ok cd f n data r D F L V H). destruct H as (H1 & H2 & H3 & H4 & H5 & H6 & _).
  destruct (unpack_decodes (c_hdr (r_cfg r)) hp data H1 ltac:(lia) H5 _ H6 ltac:(lia)) as (ps' & D' & E & FP). pose proof (las_base_range (h_fmt (c_hdr (r_cfg r)))).
  assert (R : 0 < h_reclen (c_hdr (r_cfg r))) by lia. rewrite <- (decodes_unique _ _ _ _ R DC D') in *. rewrite E. auto.
Qed.
(* addresses of fresh points *)
Lemma hget_fresh hp ps : mapM (hget (hp ++ ps)) (seq (length hp) (length ps)) = Ok ps.
Proof.
  revert hp. induction ps as [|p ps IH]; intros hp; [reflexivity|]. cbn [length seq mapM]. unfold hget at 1. rewrite nth_error_app2, Nat.sub_diag by lia. cbn [nth_error bind].
  specialize (IH (hp ++ [p])). rewrite <- app_assoc in IH. cbn [app] in IH. rewrite app_length in IH. cbn [length] in IH. replace (S (length hp)) with (length hp + 1)%nat by lia. now rewrite IH.
Qed.
Lemma hget_more hp l ps H : mapM (hget hp) l = Ok ps -> mapM (hget (hp ++ H)) l = Ok ps.
Proof.
  revert ps. induction l as [|a l IH]; intros ps E; [exact E|]. cbn [mapM] in *. apply bind_ok in E as (p & P & E). apply bind_ok in E as (q & Q & E). rewrite (IH _ Q).
  unfold hget in *. destruct (nth_error hp a) as [x|] eqn:X; [|discriminate]. rewrite nth_error_app1 by (apply nth_error_Some; congruence). rewrite X. cbn [bind] in *. injection P as <-. exact E.
Qed.
Lemma mapM_app {A B} (f : A -> outcome B) l m x y : mapM f l = Ok x -> mapM f m = Ok y -> mapM f (l ++ m) = Ok (x ++ y).
Proof.
  revert x. induction l as [|a l IH]; intros x X Y; [injection X as <-; exact Y|]. cbn [app mapM] in *. apply bind_ok in X as (p & P & X). apply bind_ok in X as (q & Q & X). injection X as <-.
  rewrite P. cbn [bind]. rewrite (IH _ Q Y). reflexivity.
Qed.
Lemma within_points hp b : forall l ps, mapM (hget hp) l = Ok ps -> exists l', get_within hp l b = Ok l' /\ mapM (hget hp) l' = Ok (filter (fun p => point_within p b) ps) /\ incl l' l.
Proof.
  induction l as [|a l IH]; intros ps E; cbn [mapM get_within] in *; [injection E as <-; exists []; auto using incl_refl|].
  apply bind_ok in E as (p & P & E). apply bind_ok in E as (q & Q & E). injection E as <-. destruct (IH _ Q) as (l' & L1 & L2 & L3). rewrite P, L1. cbn [bind filter].
  destruct (point_within p b); [exists (a :: l')|exists l']; (split; [reflexivity|split; [|]]).
  - cbn [mapM]. rewrite P, L2. reflexivity.
  - intros x [<-|X]; [now left|right; auto].
  - exact L2.
  - intros x X. right; auto.
Qed.
Lemma all_fit_ok hp c : forall l ps, mapM (hget hp) l = Ok ps -> Forall (fun p => p_fmt p = c_fmt c /\ p_reclen p = c_reclen c) ps -> all_fit hp c l = Ok tt.
Proof.
  induction l as [|a l IH]; intros ps E F; cbn [all_fit mapM] in *; [reflexivity|]. apply bind_ok in E as (p & P & E). apply bind_ok in E as (q & Q & E). injection E as <-.
  inversion F as [|? ? (F1 & F2) F3]; subst. unfold fits. rewrite P. cbn [bind]. rewrite F1, F2, !Z.eqb_refl. cbn [andb]. eauto.
Qed.
Lemma filter_forall {A} (P : A -> Prop) (f : A -> bool) l : Forall P l -> Forall P (filter f l).
Proof. induction 1 as [|a l Ha _ IH]; cbn [filter]; [constructor|]. destruct (f a); [constructor|]; auto. Qed.

(* ---- loops over nodes ---- *)
(* x leaves the reader alone and adds the points ps to out *)
Definition adds (hp : ModelPoints.heap) (out : points) (ps : list point) (r : reader) (x : reader * outcome (ModelPoints.heap * points)) : Prop :=
  exists H A, x = (r, Ok (hp ++ H, mkPoints (c_fmt out) (c_reclen out) (c_pts out ++ A))) /\ mapM (hget (hp ++ H)) A = Ok ps.
Lemma adds_nothing hp out r : adds hp out [] r (r, Ok (hp, out)).
Proof. exists [], []. rewrite !app_nil_r. destruct out. auto. Qed.
Lemma add_from_ok g (Q : node -> list point) fmt R r : forall l,
  (forall n hp out, In n l -> c_fmt out = fmt -> c_reclen out = R -> adds hp out (Q n) r (g n hp out r)) ->
  forall hp out, c_fmt out = fmt -> c_reclen out = R -> adds hp out (flat_map Q l) r (add_from g l hp out r).
Proof.
  induction l as [|n l IH]; intros G hp out F L; cbn [add_from flat_map]; [apply adds_nothing|].
  destruct (G n hp out (or_introl eq_refl) F L) as (H & A & E & M). rewrite E.
  destruct (IH (fun n hp out I => G n hp out (or_intror I)) (hp ++ H) (mkPoints (c_fmt out) (c_reclen out) (c_pts out ++ A)) F L) as (H' & A' & E' & M'). cbn [c_fmt c_reclen c_pts] in *.
  exists (H ++ H'), (A ++ A'). rewrite E', <- !app_assoc. split; [reflexivity|]. apply mapM_app; [rewrite app_assoc; now apply hget_more|now rewrite app_assoc].
Qed.
Section Nodes.
Variables (cd : codec) (f : bytes) (r : reader).
Hypothesis D : r_data r = f.
Hypothesis F : r_fail r = false.
Hypothesis FL : Z.of_nat (length f) < 2 ^ 63.
Let h := c_hdr (r_cfg r).
Lemma add_all_ok n ps hp out : node_valid n = true -> node_points cd h f n ps -> c_fmt out = h_fmt h -> c_reclen out = h_reclen h -> adds hp out ps r (add_all_of cd n hp out r).
Proof.
  intros V P E1 E2. unfold add_all_of. destruct (points_ok cd f n ps r hp D F FL V P) as (E & _). rewrite E. cbn [bind]. unfold add_points. cbn [c_fmt c_reclen c_pts]. unfold h in *.
  rewrite E1, E2, !Z.eqb_refl. cbn [negb orb bind]. exists ps, (seq (length hp) (length ps)). rewrite E1, E2. split; [reflexivity|apply hget_fresh].
Qed.
Lemma add_some_ok b n ps hp out : node_valid n = true -> node_points cd h f n ps -> c_fmt out = h_fmt h -> c_reclen out = h_reclen h ->
  adds hp out (filter (fun p => point_within p b) ps) r (add_some_of cd b n hp out r).
Proof.
  intros V P E1 E2. unfold add_some_of. destruct (points_ok cd f n ps r hp D F FL V P) as (E & FP). rewrite E. cbn [bind c_pts].
  destruct (within_points (hp ++ ps) b _ _ (hget_fresh hp ps)) as (l' & L1 & L2 & _). rewrite L1. cbn [bind]. unfold add_points_vec.
  rewrite (all_fit_ok (hp ++ ps) out l' _ L2). 2:{ rewrite E1, E2. now apply filter_forall. }
  cbn [bind]. exists ps, l'. auto.
Qed.
End Nodes.

(* ---- boxes and points ---- *)
Lemma point_in_larger p a b : point_within p a = true -> box_within a b = true -> point_within p b = true.
Proof.
  unfold point_within, box_within, box_contains, box_contains_pt, fge. rewrite !andb_true_iff. intuition eauto using fle_trans.
Qed.
Lemma point_in_both p a b : point_within p a = true -> point_within p b = true -> box_intersects a b = true.
Proof.
  unfold point_within, box_intersects, box_contains_pt, fge. rewrite !andb_true_iff. intuition eauto using fle_trans.
Qed.
Lemma filter_id {A} (p : A -> bool) l : Forall (fun a => p a = true) l -> filter p l = l.
Proof. induction 1 as [|a l Ha _ IH]; [reflexivity|]. cbn [filter]. now rewrite Ha, IH. Qed.
Lemma filter_nil {A} (p : A -> bool) l : Forall (fun a => p a = false) l -> filter p l = [].
Proof. induction 1 as [|a l Ha _ IH]; [reflexivity|]. cbn [filter]. now rewrite Ha. Qed.
Lemma filter_flat {A B} (p : B -> bool) (g : A -> list B) l : filter p (flat_map g l) = flat_map (fun a => filter p (g a)) l.
Proof. induction l as [|a l IH]; [reflexivity|]. cbn [flat_map]. now rewrite filter_app, IH. Qed.
Lemma flat_filter {A B} (c : A -> bool) (g : A -> list B) l : flat_map (fun a => if c a then g a else []) l = flat_map g (filter c l).
Proof. induction l as [|a l IH]; [reflexivity|]. cbn [flat_map filter]. destruct (c a); cbn [flat_map]; now rewrite IH. Qed.
Lemma flat_ext {A B} (g g' : A -> list B) l : (forall a, In a l -> g a = g' a) -> flat_map g l = flat_map g' l.
Proof. induction l as [|a l IH]; intros H; [reflexivity|]. cbn [flat_map]. rewrite H by (now left). f_equal. apply IH. intros b B'. apply H. now right. Qed.
Lemma exactly_same l l' Q : exactly l Q -> exactly l' Q -> Permutation l l'.
Proof.
  intros (A & B) (A' & B'). apply NoDup_Permutation; [now apply NoDup_map_inv in A|now apply NoDup_map_inv in A'|]. intros n. now rewrite B, B'.
Qed.

Lemma empty_points_ok h : plain_header h -> empty_points h = Ok (mkPoints (h_fmt h) (h_reclen h) []).
Proof.
  intros (A & B). pose proof (las_base_range (h_fmt h)). unfold empty_points. rewrite eb_size_ok by auto. cbn [bind]. rewrite new_points_ok by lia. do 2 f_equal. lia.
Qed.

Section Stored.
Variables (cd : codec) (f : bytes) (off size : Z) (hs : list page_info).
Hypothesis S0 : stored_hierarchy f off size hs.
Hypothesis FL : Z.of_nat (length f) < 2 ^ 63.
Notation good := (good f hs).

Lemma good_data r : good r -> r_data r = f /\ r_fail r = false.
Proof. intros (R & F). split; [exact (ri_data _ _ _ R)|exact F]. Qed.
Lemma depth_state od res r r1 d : visits_all od -> good r -> returns (fun n => get_depth_at_resolution n od res r) r1 (Ok d) -> good r1 /\ grows r r1.
Proof.
  intros VA G RD. destruct (deepest_exists f off size hs S0) as (md & MD). destruct (depth_good f off size hs S0 FL od res r VA G md MD) as (r1' & o & E & G1 & GR & _).
  assert (r1' = r1) as ->; [|auto]. destruct E as (n1 & E), RD as (n2 & E2). specialize (E (Nat.max n1 n2) ltac:(lia)). specialize (E2 (Nat.max n1 n2) ltac:(lia)). rewrite E in E2. now injection E2 as -> _.
Qed.
Lemma grows_cfg r r' : grows r r' -> r_cfg r' = r_cfg r.
Proof. now intros (-> & _). Qed.

Lemma all_points_good P od hp res r r1 d : visits_all od -> good r -> let h := c_hdr (r_cfg r) in plain_header h -> readable cd h f hs P ->
  returns (fun n => get_depth_at_resolution n od res r) r1 (Ok d) ->
  exists r' x ps, returns (fun n => get_all_points cd n od hp res r) r' (Ok x) /\ good r' /\ grows r r' /\ has_points h x ps /\ points_to_depth hs P d ps.
Proof.
  intros VA G h PH RB RD. destruct (depth_state od res r r1 d VA G RD) as (G1 & GR1). destruct (all_nodes_good f off size hs S0 FL od r1 VA G1) as (r2 & l & E2 & G2 & GR2 & X & _).
  assert (GR : grows r r2) by (eapply grows_trans; eauto). assert (C2 : r_cfg r2 = r_cfg r) by now apply grows_cfg. destruct (good_data r2 G2) as (D2 & F2).
  destruct (add_from_ok (fun n hp out r => if kd (n_key n) <=? d then add_all_of cd n hp out r else (r, Ok (hp, out))) (fun n => if kd (n_key n) <=? d then P n else []) (h_fmt h) (h_reclen h) r2 l) with (hp := hp) (out := mkPoints (h_fmt h) (h_reclen h) []) as (H & A & E & M); try reflexivity.
  { intros n hp' out I E1 E2'. destruct (kd (n_key n) <=? d); [|apply adds_nothing]. apply X in I. unfold h in *. apply (add_all_ok cd f r2 D2 F2 FL); rewrite ?C2; auto. eapply stored_valid; eauto. }
  exists r2. eexists. exists (flat_map (fun n => if kd (n_key n) <=? d then P n else []) l). split; [|split; [exact G2|split; [exact GR|split]]].
  - unfold get_all_points. fold h. rewrite (empty_points_ok h PH). refine (returns_then _ (fun n d r => call! l, r := get_all_nodes n od r in _) _ _ _ _ RD _).
    refine (returns_then _ _ _ _ _ _ E2 _). exists 0%nat. intros n _. rewrite E. reflexivity.
  - split; [exact M|]. split; reflexivity.
  - rewrite (flat_filter (fun n => kd (n_key n) <=? d)). exists (filter (fun n => kd (n_key n) <=? d) l). split; [|reflexivity].
    destruct (exactly_filter l _ (fun n => kd (n_key n) <=? d) X) as (Y1 & Y2). split; [exact Y1|]. intros n. rewrite Y2. now rewrite Z.leb_le.
Qed.
Lemma box_points_good P b od hp res r r1 d : visits_all od -> good r -> let h := c_hdr (r_cfg r) in plain_header h -> readable cd h f hs P ->
  (forall n, stored_nodes hs n -> Forall (fun p => point_within p (node_box h n) = true) (P n)) ->
  returns (fun n => get_depth_at_resolution n od res r) r1 (Ok d) ->
  exists r' x ps, returns (fun n => get_points_within_box cd b n od hp res r) r' (Ok x) /\ good r' /\ grows r r' /\ has_points h x (filter (fun p => point_within p b) ps) /\ points_to_depth hs P d ps.
Proof.
  intros VA G h PH RB IN RD. destruct (depth_state od res r r1 d VA G RD) as (G1 & GR1). destruct (all_nodes_good f off size hs S0 FL od r1 VA G1) as (r2 & l & E2 & G2 & GR2 & X & _).
  assert (GR : grows r r2) by (eapply grows_trans; eauto). assert (C2 : r_cfg r2 = r_cfg r) by now apply grows_cfg. assert (C1 : r_cfg r1 = r_cfg r) by now apply grows_cfg.
  destruct (good_data r2 G2) as (D2 & F2).
  set (g := fun n hp out r => if kd (n_key n) <=? d then
          if key_within (n_key n) (h_min h) (h_max h) b then add_all_of cd n hp out r
          else if key_intersects (n_key n) (h_min h) (h_max h) b then add_some_of cd b n hp out r
          else (r, Ok (hp, out))
        else (r, Ok (hp, out))).
  set (Q := fun n => if kd (n_key n) <=? d then if key_within (n_key n) (h_min h) (h_max h) b then P n else if key_intersects (n_key n) (h_min h) (h_max h) b then filter (fun p => point_within p b) (P n) else [] else []).
  destruct (add_from_ok g Q (h_fmt h) (h_reclen h) r2 l) with (hp := hp) (out := mkPoints (h_fmt h) (h_reclen h) []) as (H & A & E & M); try reflexivity.
  { intros n hp' out I E1 E2'. unfold g, Q. destruct (kd (n_key n) <=? d); [|apply adds_nothing]. apply X in I. unfold h in *.
    destruct (key_within _ _ _ _); [apply (add_all_ok cd f r2 D2 F2 FL); rewrite ?C2; auto; eapply stored_valid; eauto|].
    destruct (key_intersects _ _ _ _); [apply (add_some_ok cd f r2 D2 F2 FL); rewrite ?C2; auto; eapply stored_valid; eauto|apply adds_nothing]. }
  assert (EQ : flat_map Q l = filter (fun p => point_within p b) (flat_map P (filter (fun n => kd (n_key n) <=? d) l))).
  { rewrite <- (flat_filter (fun n => kd (n_key n) <=? d)), filter_flat. apply flat_ext. intros n I. apply X in I. unfold Q. destruct (kd (n_key n) <=? d); [|reflexivity].
    specialize (IN n I). unfold node_box in IN. destruct (key_within _ _ _ _) eqn:W; [symmetry; apply filter_id|destruct (key_intersects _ _ _ _) eqn:IS; [reflexivity|symmetry; apply filter_nil]].
    - eapply Forall_impl; [|exact IN]. intros p Hp. exact (point_in_larger p _ _ Hp W).
    - eapply Forall_impl; [|exact IN]. intros p Hp. cbn beta in *. destruct (point_within p b) eqn:PB; [|reflexivity]. unfold key_intersects in IS. rewrite (point_in_both p _ _ Hp PB) in IS. discriminate. }
  exists r2. eexists. exists (flat_map P (filter (fun n => kd (n_key n) <=? d) l)). split; [|split; [exact G2|split; [exact GR|split]]].
  - unfold get_points_within_box. refine (returns_then _ (fun n d r => match empty_points (c_hdr (r_cfg r)) with Ok out => call! l, r := get_all_nodes n od r in _ | Throw => Some (r, Throw) | UB => Some (r, UB) end) _ _ _ _ RD _).
    cbv beta. rewrite C1. fold h. rewrite (empty_points_ok h PH). refine (returns_then _ _ _ _ _ _ E2 _). exists 0%nat. intros n _. cbv beta zeta. rewrite C2. fold h. fold g. rewrite E. reflexivity.
  - split; [rewrite <- EQ; exact M|]. split; reflexivity.
  - exists (filter (fun n => kd (n_key n) <=? d) l). split; [|reflexivity].
    destruct (exactly_filter l _ (fun n => kd (n_key n) <=? d) X) as (Y1 & Y2). split; [exact Y1|]. intros n. rewrite Y2. now rewrite Z.leb_le.
Qed.
End Stored.
