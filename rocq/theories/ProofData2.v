(* ProofData2.v - ValidateSpatialBounds; data of nodes by key; queries that leave the stream good *)
From Coq Require Import Permutation.
From Verif Require Import Base BaseFacts ModelFloat ModelKey ModelGeom ModelEntry ModelPoint ModelPoints ModelHeader ModelVlr ModelExtents ModelConfig
  ModelStream ModelWriter ModelReader SpecKey SpecPoint SpecPoints SpecGeom SpecWriter SpecHier SpecReader SpecData
  ProofKey ProofFloat ProofGeom ProofPoint ProofPoints ProofPoints2 ProofExtents ProofReader ProofReader3 ProofReader6 ProofData.
Open Scope Z_scope.

Lemma check_quiet ok ps t : check_points false ok ps t = Ok (if forallb ok ps then Some (t, true) else None).
Proof. induction ps as [|p ps IH]; [reflexivity|]. cbn [check_points forallb negb]. destruct (ok p); [exact IH|reflexivity]. Qed.
Lemma check_verbose ok : forall ps t, 0 <= t -> t + Z.of_nat (length ps) <= INT32_MAX ->
  exists t', check_points true ok ps t = Ok (Some (t', forallb ok ps)) /\ t <= t' <= t + Z.of_nat (length ps).
Proof.
  induction ps as [|p ps IH]; intros t T0 T1; cbn [check_points forallb length negb] in *; [exists t; split; [reflexivity|lia]|]. destruct (ok p).
  - destruct (IH t T0 ltac:(lia)) as (t' & -> & B). exists t'. split; [reflexivity|lia].
  - unfold add_int. replace (i32 (t + 1)) with true by (unfold i32, in_range, INT32_MAX, INT32_MIN in *; lia). cbn [bind]. destruct (IH (t + 1) ltac:(lia) ltac:(lia)) as (t' & -> & B).
    cbn [bind]. exists t'. split; [reflexivity|lia].
Qed.
(* one node satisfies ValidateSpatialBounds *)
Definition node_ok (h : las_header) (hb : box) (P : node -> list point) (n : node) : bool :=
  box_intersects (node_box h n) hb && forallb (fun p => point_within p (node_box h n) && point_within p hb) (P n).
Lemma forallb_and {A} (p q : A -> bool) l : forallb (fun a => p a && q a) l = forallb p l && forallb q l.
Proof. induction l as [|a l IH]; [reflexivity|]. cbn [forallb]. rewrite IH. destruct (p a), (q a), (forallb p l); reflexivity. Qed.
Lemma both_tests h hb P n : box_intersects (node_box h n) hb = true ->
  node_ok h hb P n = (if box_within (node_box h n) hb then true else forallb (fun p => point_within p hb) (P n)) && forallb (fun p => point_within p (node_box h n)) (P n).
Proof.
  intros B. unfold node_ok. rewrite B. cbn [andb]. rewrite forallb_and. destruct (box_within (node_box h n) hb) eqn:W; [|apply andb_comm].
  cbn [andb]. destruct (forallb (fun p => point_within p (node_box h n)) (P n)) eqn:E; [|reflexivity]. cbn [andb]. rewrite forallb_forall in *. intros p I. eapply point_in_larger; eauto.
Qed.
Section Validate.
Variables (cd : codec) (f : bytes) (r : reader) (P : node -> list point) (hb : box).
Hypothesis D : r_data r = f.
Hypothesis F : r_fail r = false.
Hypothesis FL : Z.of_nat (length f) < 2 ^ 63.
Let h := c_hdr (r_cfg r).
Hypothesis HB : header_bounds (h_min h) (h_max h) = Ok hb.
Definition fine (n : node) : Prop := node_valid n = true /\ node_points cd h f n (P n).
Lemma count_points n : fine n -> Z.of_nat (length (P n)) = e_count (n_entry n).
Proof.
  intros (_ & data & (A & B & C & _ & _ & E & _) & (G & _)). pose proof (las_base_range (h_fmt h)). apply (Z.mul_cancel_r _ _ (h_reclen h)); lia.
Qed.
Lemma validate_quiet : forall l t1 t2, Forall fine l -> validate_nodes cd false l t1 t2 true r = (r, Ok (forallb (node_ok h hb P) l)).
Proof.
  induction l as [|n l IH]; intros t1 t2 FN; [reflexivity|]. inversion FN as [|? ? (V & N) FN']; subst. cbn [validate_nodes forallb]. fold h. rewrite HB. fold (node_box h n).
  destruct (box_intersects (node_box h n) hb) eqn:B; cbn [negb]; [|unfold node_ok; rewrite B; reflexivity].
  destruct (points_ok cd f n (P n) r [] D F FL V N) as (E & _). rewrite E. cbn [c_pts app]. rewrite (hget_fresh [] (P n) : mapM (hget (P n)) _ = Ok (P n)). cbn [bind].
  rewrite (both_tests h hb P n B). rewrite check_quiet. destruct (box_within (node_box h n) hb); cbn [bind andb].
  - rewrite check_quiet. destruct (forallb _ (P n)); cbn [bind andb]; [now apply IH|reflexivity].
  - rewrite check_quiet. destruct (forallb (fun p => point_within p hb) (P n)); cbn [bind andb]; [|reflexivity]. destruct (forallb _ (P n)); cbn [bind andb]; [now apply IH|reflexivity].
Qed.
Lemma claimed_nonneg l : Forall fine l -> 0 <= claimed_points l.
Proof. induction 1 as [|n l Hn _ IH]; [apply Z.le_refl|]. cbn [claimed_points fold_right]. fold (claimed_points l). pose proof (count_points n Hn). lia. Qed.
Lemma validate_verbose : forall l t1 t2 v, Forall fine l -> 0 <= t1 -> 0 <= t2 -> t1 + claimed_points l <= INT32_MAX -> t2 + claimed_points l <= INT32_MAX ->
  validate_nodes cd true l t1 t2 v r = (r, Ok (v && forallb (node_ok h hb P) l)).
Proof.
  induction l as [|n l IH]; intros t1 t2 v FN T1 T2 C1 C2; [cbn; now rewrite andb_true_r|]. inversion FN as [|? ? FN1 FN']; subst. pose proof (count_points n FN1) as CP. destruct FN1 as (V & N).
  pose proof (claimed_nonneg l FN') as CN. cbn [claimed_points fold_right] in C1, C2. fold (claimed_points l) in C1, C2.
  cbn [validate_nodes forallb]. fold h. rewrite HB. fold (node_box h n). destruct (box_intersects (node_box h n) hb) eqn:B; cbn [negb].
  - destruct (points_ok cd f n (P n) r [] D F FL V N) as (E & _). rewrite E. cbn [c_pts app]. rewrite (hget_fresh [] (P n) : mapM (hget (P n)) _ = Ok (P n)). cbn [bind].
    rewrite (both_tests h hb P n B). destruct (check_verbose (fun p => point_within p (node_box h n)) (P n) t2 T2 ltac:(lia)) as (t2' & K2 & B2).
    destruct (box_within (node_box h n) hb); cbn [bind andb].
    + rewrite K2. cbn [bind]. rewrite IH by (auto; lia). now rewrite andb_assoc.
    + destruct (check_verbose (fun p => point_within p hb) (P n) t1 T1 ltac:(lia)) as (t1' & K1 & B1). rewrite K1. cbn [bind]. rewrite K2. cbn [bind]. rewrite IH by (auto; lia). now rewrite !andb_assoc.
  - assert (NK : node_ok h hb P n = false) by (unfold node_ok; now rewrite B). rewrite NK. cbn [andb]. unfold add_int. replace (i32 (t1 + e_count (n_entry n))) with true by (unfold i32, in_range, INT32_MAX, INT32_MIN in *; lia).
    rewrite IH by (auto; lia). now rewrite ?andb_false_r.
Qed.
End Validate.

Section Stored.
Variables (cd : codec) (f : bytes) (off size : Z) (hs : list page_info).
Hypothesis S0 : stored_hierarchy f off size hs.
Hypothesis FL : Z.of_nat (length f) < 2 ^ 63.
Notation good := (good f hs).
Let T := hierarchy_tree f off size hs S0.

Lemma validate_good P hb od v r : visits_all od -> good r -> let h := c_hdr (r_cfg r) in readable cd h f hs P -> header_bounds (h_min h) (h_max h) = Ok hb ->
  (v = true -> forall l, exactly l (stored_nodes hs) -> claimed_points l <= INT32_MAX) ->
  exists r' b, returns (fun n => validate_spatial_bounds cd n od v r) r' (Ok b) /\ good r' /\ grows r r' /\ (b = true <-> spatially_valid h hs P hb).
Proof.
  intros VA G h RB HB CV. destruct (all_nodes_good f off size hs S0 FL od r VA G) as (r1 & l & E & G1 & GR & X & _). destruct (good_data f hs r1 G1) as (D1 & F1).
  assert (C1 : r_cfg r1 = r_cfg r) by (now apply grows_cfg).
  assert (FN : Forall (fine cd f r1 P) l). { apply Forall_forall. intros n I. apply X in I. unfold fine. rewrite C1. split; [eapply stored_valid; eauto|now apply RB]. }
  assert (HB1 : header_bounds (h_min (c_hdr (r_cfg r1))) (h_max (c_hdr (r_cfg r1))) = Ok hb) by (rewrite C1; exact HB).
  exists r1, (forallb (node_ok h hb P) l). split; [|split; [exact G1|split; [exact GR|]]].
  - refine (returns_then _ _ _ _ _ _ E _). exists 0%nat. intros _ _. f_equal. destruct v.
    + rewrite (validate_verbose cd f r1 P hb D1 F1 FL HB1 l 0 0 true FN) by (try lia; specialize (CV eq_refl l X); lia). unfold h. rewrite C1. reflexivity.
    + rewrite (validate_quiet cd f r1 P hb D1 F1 FL HB1 l 0 0 FN). unfold h. rewrite C1. reflexivity.
  - rewrite forallb_forall. destruct X as (_ & X). split.
    + intros H n N. apply X in N. specialize (H n N). unfold node_ok in H. apply andb_prop in H as (H1 & H2). split; [exact H1|]. apply Forall_forall. rewrite forallb_forall in H2. intros p I. apply andb_prop. auto.
    + intros H n N. apply X in N. destruct (H n N) as (H1 & H2). unfold node_ok. rewrite H1. cbn [andb]. apply forallb_forall. rewrite Forall_forall in H2. intros p I. apply andb_true_intro. auto.
Qed.

(* ---- data by key ---- *)
Lemma stored_key k n : stored_node hs k n -> n_key n = k /\ key_valid k = true /\ node_valid n = true.
Proof.
  intros (i & e & A1 & A2 & A3 & A4 & A5 & ->). destruct (sh_entry _ _ _ _ S0 i e A1 A3) as (_ & V & _). split; [exact A5|]. split; [|exact V].
  unfold entry_valid in V. apply andb_prop in V as (_ & V). now rewrite A5 in V.
Qed.
Lemma by_key_good g k r : good r -> exists r' o, returns (fun n => by_key g n k r) r' o /\
  ((exists n r1, stored_node hs k n /\ good r1 /\ grows r r1 /\ (r', o) = g n r1) \/ ((forall n, ~ stored_node hs k n) /\ good r' /\ grows r r' /\ o = Ok [])).
Proof.
  intros G. unfold by_key. destruct (key_valid k) eqn:V; cbn [negb].
  - destruct (find_good f off size hs S0 FL k r G) as (r1 & o1 & E & G1 & GR & X1 & X2). destruct (stored_dec f off size hs S0 k) as [(n & N)|N].
    + rewrite (X1 n N) in E. destruct (stored_key k n N) as (_ & _ & NV). destruct (g n r1) as (r', o) eqn:GN. exists r', o. split; [|left; exists n, r1; repeat (split; [assumption|]); now symmetry].
      refine (returns_then _ _ _ _ _ _ E _). rewrite NV. cbn [negb]. rewrite GN. apply returns_const.
    + rewrite (X2 N) in E. exists r1, (Ok []). split; [|right; auto]. refine (returns_then _ _ _ _ _ _ E _). apply returns_const.
  - exists r, (Ok []). split; [apply returns_const|]. right. split; [|split; [exact G|split; [apply grows_refl|reflexivity]]]. intros n N. destruct (stored_key k n N) as (_ & V' & _). congruence.
Qed.
Lemma compressed_ok n r : good r -> node_valid n = true -> whole_chunk f n -> get_compressed_node n r = (r, Ok (bytes_at (e_offset (n_entry n)) (e_size (n_entry n)) f)).
Proof.
  intros G V (C1 & C2). destruct (good_data f hs r G) as (D & F). assert (S : 0 <= e_size (n_entry n)).
  { unfold node_valid, entry_valid in V. apply andb_prop in V as (V & _). apply andb_prop in V as (_ & V). lia. }
  unfold get_compressed_node. rewrite V. cbn [negb]. rewrite seek_stays by (rewrite ?D; auto; lia). rewrite F. unfold rest_at. rewrite F, D. fold (bytes_at (e_offset (n_entry n)) (e_size (n_entry n)) f).
  assert (L : length (bytes_at (e_offset (n_entry n)) (e_size (n_entry n)) f) = Z.to_nat (e_size (n_entry n))) by (unfold bytes_at; rewrite firstn_length, skipn_length; lia).
  rewrite L, Nat.sub_diag, Nat.ltb_irrefl. cbn [orb zeros repeat]. unfold zeros. cbn [repeat]. rewrite app_nil_r. f_equal. destruct r; cbn in *. now rewrite F.
Qed.
Lemma data_by_key k r : good r -> let h := c_hdr (r_cfg r) in
  (forall n data, stored_node hs k n -> holds_records cd h f n data -> exists r', returns (fun m => get_point_data cd m k r) r' (Ok data) /\ good r' /\ grows r r') /\
  (forall n, stored_node hs k n -> whole_chunk f n -> exists r', returns (fun m => get_compressed m k r) r' (Ok (bytes_at (e_offset (n_entry n)) (e_size (n_entry n)) f)) /\ good r' /\ grows r r') /\
  (forall n ps hp, stored_node hs k n -> node_points cd h f n ps -> plain_header h -> exists r' x, returns (fun m => get_points cd m hp k r) r' (Ok x) /\ has_points h x ps /\ good r' /\ grows r r') /\
  ((forall n, ~ stored_node hs k n) -> (exists r', returns (fun m => get_point_data cd m k r) r' (Ok []) /\ good r' /\ grows r r') /\
     (exists r', returns (fun m => get_compressed m k r) r' (Ok []) /\ good r' /\ grows r r') /\
     (forall hp, plain_header h -> exists r' x, returns (fun m => get_points cd m hp k r) r' (Ok x) /\ has_points h x [] /\ good r' /\ grows r r')).
Proof.
  intros G h. assert (UN : forall n n', stored_node hs k n -> stored_node hs k n' -> n = n').
  { destruct (find_good f off size hs S0 FL k r G) as (r1 & o & _ & _ & _ & X & _). intros n n' N N'. pose proof (X n N) as X1. rewrite (X n' N') in X1. congruence. }
  assert (DATA : forall n data, stored_node hs k n -> holds_records cd h f n data -> exists r', returns (fun m => get_point_data cd m k r) r' (Ok data) /\ good r' /\ grows r r').
  { intros n data N H. destruct (by_key_good (get_point_data_node cd) k r G) as (r' & o & E & [(n' & r1 & N' & G1 & GR & EQ)|(NS & _)]); [|exfalso; exact (NS n N)].
    rewrite <- (UN n n' N N') in EQ. destruct (good_data f hs r1 G1) as (D1 & F1). destruct (stored_key k n N) as (_ & _ & V).
    rewrite (data_ok cd f n data r1 D1 F1 FL V) in EQ by (rewrite (grows_cfg r r1 GR); exact H). pose proof (f_equal fst EQ) as Q1. pose proof (f_equal snd EQ) as Q2. cbn in Q1, Q2. subst r' o. exists r1. auto. }
  assert (NODATA : (forall n, ~ stored_node hs k n) -> exists r', returns (fun m => get_point_data cd m k r) r' (Ok []) /\ good r' /\ grows r r').
  { intros N. destruct (by_key_good (get_point_data_node cd) k r G) as (r' & o & E & [(n' & r1 & N' & _)|(_ & G' & GR & ->)]); [exfalso; exact (N n' N')|]. exists r'. auto. }
  split; [exact DATA|]. split; [|split].
  - intros n N W. destruct (by_key_good get_compressed_node k r G) as (r' & o & E & [(n' & r1 & N' & G1 & GR & EQ)|(NS & _)]); [|exfalso; exact (NS n N)].
    rewrite <- (UN n n' N N') in EQ. destruct (stored_key k n N) as (_ & _ & V). rewrite (compressed_ok n r1 G1 V W) in EQ.
    pose proof (f_equal fst EQ) as Q1. pose proof (f_equal snd EQ) as Q2. cbn in Q1, Q2. subst r' o. exists r1. auto.
  - intros n ps hp N (data & H & DC) (PH1 & PH2). destruct (DATA n data N H) as (r' & E & G' & GR). exists r'. assert (C' : r_cfg r' = r_cfg r) by now apply grows_cfg.
    destruct data as [|x data].
    + exists (hp, mkPoints (h_fmt h) (h_reclen h) []). split; [|split; [|auto]].
      * unfold get_points. refine (returns_then _ _ _ _ _ _ E _). exists 0%nat. intros _ _. cbv beta. rewrite C'. fold h. rewrite (empty_points_ok h (conj PH1 PH2)). reflexivity.
      * destruct DC as (L & _). destruct ps; [repeat split; reflexivity|]. exfalso. cbn [length] in L. pose proof (las_base_range (h_fmt h)). nia.
    + destruct H as (H1 & H2 & H3 & H4 & H5 & H6 & _). assert (R65 : las_base (h_fmt h) <= h_reclen h <= 65535) by lia. assert (CM : e_count (n_entry n) <= INT32_MAX) by lia.
      destruct (unpack_decodes h hp (x :: data) H1 R65 H5 _ H6 CM) as (ps' & D' & U & _).
      assert (RP : 0 < h_reclen h) by (pose proof (las_base_range (h_fmt h)); lia). rewrite <- (decodes_unique _ _ _ _ RP DC D') in U.
      eexists. split; [|split; [|auto]].
      * unfold get_points. refine (returns_then _ _ _ _ _ _ E _). exists 0%nat. intros _ _. cbv beta. rewrite C'. fold h. rewrite U. reflexivity.
      * split; [apply hget_fresh|]. split; reflexivity.
  - intros N. split; [now apply NODATA|]. split.
    + destruct (by_key_good get_compressed_node k r G) as (r' & o & E & [(n' & r1 & N' & _)|(_ & G' & GR & ->)]); [exfalso; exact (N n' N')|]. exists r'. auto.
    + intros hp PH. destruct (NODATA N) as (r' & E & G' & GR). exists r', (hp, mkPoints (h_fmt h) (h_reclen h) []). split; [|split; [repeat split; reflexivity|auto]].
      unfold get_points. refine (returns_then _ _ _ _ _ _ E _). exists 0%nat. intros _ _. cbv beta. rewrite (grows_cfg r r' GR). fold h. rewrite (empty_points_ok h PH). reflexivity.
Qed.
End Stored.
