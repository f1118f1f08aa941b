(* ProofReader6.v - queries on stored hierarchies *)
From Coq Require Import Permutation.
From Verif Require Import Base BaseFacts ModelFloat ModelKey ModelGeom ModelEntry ModelPoint ModelPoints ModelHeader ModelVlr ModelExtents ModelConfig
  ModelStream ModelWriter ModelReader SpecKey SpecPoint SpecWriter SpecHier SpecReader ProofKey ProofPoint ProofStream ProofTree ProofPages ProofHier
  ProofReader ProofReader2 ProofReader3 ProofReader4 ProofReader5.

Lemma returns_then {A B} (x : nat -> call A) (g : nat -> A -> reader -> call B) r1 a r2 o :
  returns x r1 (Ok a) -> returns (fun n => g n a r1) r2 o -> returns (fun n => and_then (x n) (g n)) r2 o.
Proof. intros (n1 & H1) (n2 & H2). exists (Nat.max n1 n2). intros n L. rewrite H1 by lia. cbn [and_then]. apply H2. lia. Qed.
Lemma returns_const {A} r (o : outcome A) : returns (fun _ => Some (r, o)) r o.
Proof. exists 0%nat. reflexivity. Qed.

(* a stored hierarchy is a finite tree *)
Lemma hierarchy_finite f off size hs : stored_hierarchy f off size hs -> finite_tree f off size.
Proof.
  intros S. pose proof (hierarchy_tree _ _ _ _ S) as T. pose proof (all_intact _ _ _ _ S) as AI.
  assert (H : forall m h, In h hs -> (forall j, In j hs -> child_of (pi_key j) (pi_key h) = true -> kd (pi_key j) - kd (pi_key h) < Z.of_nat m) -> finite_tree f (pi_off h) (pi_size h)).
  { induction m as [|m IH]; intros h A D.
    { exfalso. specialize (D h A (child_of_refl _ (page_valid_key f off size hs T h A))). lia. }
    constructor. intros es e E Ie Se.
    destruct (sh_page _ _ _ _ S h A) as (B1 & B2 & B3 & B4 & B5).
    assert (es = pi_ents h) as ->.
    { apply (entries_once f (pi_off h) (pi_size h) es (pi_ents h) E). split.
      - rewrite B2. rewrite Z.mul_comm, Z.div_mul by lia. lia.
      - assert (X : skipn (Z.to_nat (pi_off h)) f = flat_map entry_pack (pi_ents h) ++ skipn (Z.to_nat (pi_size h)) (skipn (Z.to_nat (pi_off h)) f)) by (rewrite <- B5; unfold bytes_at; now rewrite firstn_skipn).
        rewrite X. generalize (skipn (Z.to_nat (pi_size h)) (skipn (Z.to_nat (pi_off h)) f)).
        assert (W : Forall (fun e => wf_entry e = true) (pi_ents h)) by (apply Forall_forall; intros e' Ie'; now destruct (sh_entry _ _ _ _ S h e' A Ie')).
        clear -W. induction W as [|e l W1 W2 IH]; intros rest; [exact I|]. cbn [flat_map entries_from]. rewrite <- app_assoc, entry_roundtrip by exact W1. eexists. split; [reflexivity|apply IH]. }
    destruct (sh_sub _ _ _ _ S h e A Ie Se) as (_ & j & J1 & J2 & <- & <- & _). apply IH; [exact J1|].
    destruct (sub_page f off size hs T h e A (AI h A)) as (j' & J1' & J2' & J3' & J4'); [apply filter_In; auto|].
    assert (j' = j) as -> by (apply (page_unique f off size hs T); auto; congruence).
    intros q Q C. specialize (D q Q (child_of_trans _ _ _ C J4')). lia. }
  destruct (sh_root _ _ _ _ S) as (h & A & B & <- & <-). apply (H (depth_bound hs root_key) h A).
  intros j J _. pose proof (depth_bound_page hs root_key j J). rewrite B. cbn [kd root_key]. lia.
Qed.

(* ---- depth for a resolution ---- *)
Lemma depth_loop_spec s res maxd : forall n i, maxd + 1 - i = Z.of_nat n -> 0 <= i -> let o := depth_loop n i maxd (spacing_at s (Z.to_nat i)) res in
  (forall j, i <= j <= maxd -> fle (spacing_at s (Z.to_nat j)) res = true -> (forall j', i <= j' < j -> fle (spacing_at s (Z.to_nat j')) res = false) -> o = Ok j) /\
  ((forall j, i <= j <= maxd -> fle (spacing_at s (Z.to_nat j)) res = false) -> maxd < INT32_MAX -> o = Ok maxd).
Proof.
  induction n as [|n IH]; intros i E I; cbn [depth_loop].
  - split; [intros j J; lia|]. intros _ M. destruct (Z.eqb_spec maxd INT32_MAX); [lia|reflexivity].
  - destruct (fle (spacing_at s (Z.to_nat i)) res) eqn:C.
    + split.
      * intros j J Cj H. destruct (Z.eq_dec i j) as [->|N]; [reflexivity|]. rewrite (H i) in C by lia. discriminate.
      * intros H _. rewrite (H i) in C by lia. discriminate.
    + specialize (IH (i + 1) ltac:(lia) ltac:(lia)). assert (SP : spacing_at s (Z.to_nat (i + 1)) = fdiv (spacing_at s (Z.to_nat i)) f2).
      { replace (Z.to_nat (i + 1)) with (S (Z.to_nat i)) by lia. reflexivity. }
      rewrite SP in IH. destruct IH as (IH1 & IH2). split.
      * intros j J Cj H. apply IH1; auto; [|intros j' J'; apply H; lia]. destruct (Z.eq_dec i j) as [->|N]; [congruence|lia].
      * intros H M. apply IH2; auto. intros j J. apply H. lia.
Qed.
Lemma max_depth_fold : forall l m, let d := fold_left (fun m n => if m <? kd (n_key n) then kd (n_key n) else m) l m in
  m <= d /\ (forall n, In n l -> kd (n_key n) <= d) /\ (d = m \/ exists n, In n l /\ kd (n_key n) = d).
Proof.
  induction l as [|x l IH]; intros m; cbn [fold_left]; [split; [lia|]; split; [intros n []|auto]|].
  specialize (IH (if m <? kd (n_key x) then kd (n_key x) else m)). cbn zeta in IH. destruct IH as (A & B & C). destruct (Z.ltb_spec m (kd (n_key x))).
  - split; [lia|]. split; [intros n [<-|N]; [lia|auto]|]. right. destruct C as [C|(n & N & C)]; [exists x; split; [now left|auto]|exists n; split; [now right|auto]].
  - split; [lia|]. split; [intros n [<-|N]; [lia|auto]|]. destruct C as [C|(n & N & C)]; [left; lia|right; exists n; split; [now right|auto]].
Qed.
Lemma max_depth_spec l (P : node -> Prop) : (forall n, In n l <-> P n) -> (forall n, P n -> 0 <= kd (n_key n)) -> deepest P (max_depth_of l).
Proof.
  intros E V. unfold max_depth_of. destruct (max_depth_fold l (-1)) as (A & B & C). cbn zeta in *. split; [intros n N; apply B, E, N|].
  destruct C as [C|(n & N & C)].
  - left. split; [exact C|]. intros n N. pose proof (V n N). apply E in N. apply B in N. lia.
  - right. exists n. split; [now apply E|exact C].
Qed.
Lemma deepest_unique (P : node -> Prop) d d' : (forall n, P n -> 0 <= kd (n_key n)) -> deepest P d -> deepest P d' -> d = d'.
Proof.
  intros V (A & B) (A' & B'). destruct B as [(-> & B)|(n & N & E)], B' as [(-> & B')|(n' & N' & E')].
  - reflexivity.
  - exfalso. exact (B n' N').
  - exfalso. exact (B' n N).
  - apply A in N'. apply A' in N. lia.
Qed.

Section Stored.
Variable f : bytes.
Variables off size : Z.
Variable hs : list page_info.
Hypothesis S0 : stored_hierarchy f off size hs.
Hypothesis FL : Z.of_nat (length f) < 2 ^ 63.
Notation rinv := (rinv f hs).
Let T : page_tree f off size hs := hierarchy_tree f off size hs S0.
Let AI := all_intact f off size hs S0.

Lemma not_blocked k : ~ blocked hs k.
Proof. intros (i & A & B & _). rewrite (AI i A) in B. discriminate. Qed.
Lemma stored_dec k : (exists n, stored_node hs k n) \/ forall n, ~ stored_node hs k n.
Proof.
  destruct (existsb (fun i => existsb (fun e => negb (is_sub e) && key_eqb (e_key e) k) (pi_ents i)) hs) eqn:E.
  - left. apply existsb_exists in E. destruct E as (i & I1 & E). apply existsb_exists in E. destruct E as (e & E1 & E). apply andb_prop in E. destruct E as (E2 & E3).
    apply negb_true_iff in E2. apply key_eqb_eq in E3. exists (mkNode e (pi_key i)). exists i, e. repeat split; auto.
  - right. intros n (i & e & A1 & A2 & A3 & A4 & A5 & _). assert (X : existsb (fun i => existsb (fun e => negb (is_sub e) && key_eqb (e_key e) k) (pi_ents i)) hs = true); [|congruence].
    apply existsb_exists. exists i. split; [exact A1|]. apply existsb_exists. exists e. split; [exact A3|]. rewrite A4, A5. cbn. apply key_eqb_refl.
Qed.
Lemma below_root n : nodes_below hs root_key n <-> stored_nodes hs n.
Proof.
  split.
  - intros (i & e & A1 & A2 & A3 & A4 & ->). exists i, e. repeat split; auto.
  - intros (i & e & A1 & A2 & A3 & A4 & A5 & ->). exists i, e. repeat split; auto. now apply (page_in_root f off size hs T).
Qed.
Lemma stored_depth n : stored_nodes hs n -> 0 <= kd (n_key n).
Proof.
  intros (i & e & A1 & A2 & A3 & A4 & A5 & _). destruct (sh_entry _ _ _ _ S0 i e A1 A3) as (_ & V & _). unfold entry_valid in V. apply andb_prop in V. destruct V as (_ & V).
  rewrite A5 in V. apply key_valid_spec in V. destruct V. lia.
Qed.
Lemma stored_valid n : stored_nodes hs n -> node_valid n = true.
Proof. intros (i & e & A1 & A2 & A3 & A4 & A5 & ->). now destruct (sh_entry _ _ _ _ S0 i e A1 A3) as (_ & V & _). Qed.

Definition good (r : reader) : Prop := rinv r /\ r_fail r = false.
Lemma used_good r : in_use f off size r -> good r.
Proof. intros (cd & od & r0 & A & B & C). split; [|exact C]. now destruct (used_rinv f off size hs T FL cd od r0 r A B). Qed.

Lemma find_good k r : good r -> exists r' o, returns (fun n => find_node n k r) r' o /\ good r' /\ grows r r' /\
  (forall n, stored_node hs k n -> o = Ok n) /\ ((forall n, ~ stored_node hs k n) -> o = Ok invalid_node).
Proof.
  intros (R & F). destruct (find_returns f off size hs T FL r k _ R F (le_n _)) as (r' & o & E & R' & F' & G & (X1 & X2) & _). exists r', o. split.
  - exists (depth_bound hs k). intros n L. now apply (find_mono k _ _ _ _ L).
  - split; [split; auto|]. split; [exact G|]. split; [exact X1|]. intros NS. destruct (X2 NS) as (_ & Y). apply Y, not_blocked.
Qed.
Lemma children_good od k r : visits_all od -> good r -> forall h, In h hs -> pi_key h = k -> (is_seen r k \/ forall n, stored_node hs k n -> n_page n = k \/ refers_to hs (n_page n) k) ->
  exists r' l, returns (fun n => get_all_children_of_page n od k r) r' (Ok l) /\ good r' /\ grows r r' /\ exactly l (nodes_below hs k) /\
    (forall j, In j hs -> child_of (pi_key j) k = true -> is_loaded r' (pi_key j)).
Proof.
  intros VA (R & F) h A <- NEAR. destruct (children_page f off size hs T FL od h r _ VA A R F (le_n _)) as (r' & o & E & R' & F' & G & C).
  { destruct NEAR as [X|X]; [now left|right]. intros n N. destruct (X n N) as [Y|(i & e & I1 & I2 & I3 & I4 & I5)]; [now left|right]. exists i, e. repeat split; auto. }
  destruct C as [(_ & j & J1 & _ & J2)|(l & -> & X & LD)]; [rewrite (AI j J1) in J2; discriminate|]. exists r', l. split.
  - exists (depth_bound hs (pi_key h)). intros n L. now apply (children_mono od _ _ _ _ _ L).
  - split; [split; auto|]. auto.
Qed.
Lemma no_page_good od k r : visits_all od -> good r -> (forall h, In h hs -> pi_key h <> k) ->
  exists r' o, returns (fun n => get_all_children_of_page n od k r) r' o /\ good r' /\ grows r r' /\
    (forall n, stored_node hs k n -> o = Ok [n]) /\ ((forall n, ~ stored_node hs k n) -> o = Ok []).
Proof.
  intros VA (R & F) NP. destruct (children_no_page f off size hs T FL od k r _ VA R F (le_n _) NP) as (r' & o & E & R' & F' & G & C1 & C2). exists r', o. split.
  - exists (depth_bound hs k). intros n L. now apply (children_mono od _ _ _ _ _ L).
  - split; [split; auto|]. split; [exact G|]. split; [exact C1|]. intros NS. apply C2; auto. apply not_blocked.
Qed.
Lemma all_nodes_good od r : visits_all od -> good r ->
  exists r' l, returns (fun n => get_all_nodes n od r) r' (Ok l) /\ good r' /\ grows r r' /\ exactly l (stored_nodes hs) /\ (forall j, In j hs -> is_loaded r' (pi_key j)).
Proof.
  intros VA GR. destruct (root_page f off size hs T) as (h & A & B).
  destruct (children_good od root_key r VA GR h A B (or_introl (root_seen f hs r (proj1 GR)))) as (r' & l & E & G' & G & X & LD).
  exists r', l. split; [exact E|]. split; [exact G'|]. split; [exact G|]. split; [eapply exactly_ext; [apply below_root|exact X]|].
  intros j J. apply LD; auto. now apply (page_in_root f off size hs T).
Qed.
Lemma page_list_good od r : visits_all od -> good r ->
  exists r' ks, returns (fun n => get_page_list n od r) r' (Ok ks) /\ good r' /\ grows r r' /\ Permutation ks (map pi_key hs).
Proof.
  intros VA GR. destruct (all_nodes_good od r VA GR) as (r1 & l & E & (R1 & F1) & G1 & _ & LD).
  set (go := fix go (l : list nat) : outcome (list key) := match l with [] => Ok [] | i :: l' => match nth_error (r_pages r1) i with None => UB | Some p => let! ks := go l' in Ok (rp_key p :: ks) end end).
  assert (X : forall ids : list (key * nat), (forall k i, In (k, i) ids -> id_key r1 i = Some k) -> go (map snd ids) = Ok (map fst ids)).
  { induction ids as [|(k, i) ids IH]; intros H; [reflexivity|]. cbn [map fst snd go]. pose proof (H k i (or_introl eq_refl)) as Hi. unfold id_key in Hi.
    destruct (nth_error (r_pages r1) i) as [p|]; [|discriminate]. cbn in Hi. injection Hi as ->. rewrite IH by (intros k' i' I'; apply H; now right). reflexivity. }
  assert (SEEN : forall k i, In (k, i) (r_seen r1) -> id_key r1 i = Some k).
  { intros k i I. pose proof (mget_of_in k i (r_seen r1) (ri_nodup _ _ _ R1) I) as M. destruct (ri_seen _ _ _ R1 _ _ M) as (p & P1 & P2). unfold id_key. rewrite P1. cbn. congruence. }
  destruct VA as (_ & _ & VP).
  destruct (Permutation_map_inv snd (r_seen r1) (VP (map snd (r_seen r1)))) as (ids & I1 & I2).
  exists r1, (map fst ids). split; [|split; [split; auto|split; [exact G1|]]].
  - apply (returns_then _ _ _ _ _ _ E). fold go. rewrite I1.
    rewrite X; [apply returns_const|]. intros k i I. apply SEEN. eapply Permutation_in; [apply Permutation_sym; exact I2|exact I].
  - eapply Permutation_trans; [apply Permutation_map, Permutation_sym; exact I2|]. apply NoDup_Permutation; [exact (ri_nodup _ _ _ R1)|exact (sh_keys _ _ _ _ S0)|].
    intros k. split.
    + intros I. apply in_map_iff in I. destruct I as ((k', i) & <- & I). cbn [fst]. specialize (SEEN _ _ I). unfold id_key in SEEN. destruct (nth_error (r_pages r1) i) as [p|] eqn:P; [|discriminate].
      cbn in SEEN. injection SEEN as <-. destruct (ri_page _ _ _ R1 _ _ P) as (_ & h & H1 & H2 & _). rewrite <- H2. now apply in_map.
    + intros I. apply in_map_iff in I. destruct I as (h & <- & I). destruct (LD h I) as (i & p & P1 & P2 & _). destruct (ri_page _ _ _ R1 _ _ P1) as (M & _). rewrite P2 in M.
      apply mget_in in M. apply (in_map fst) in M. exact M.
Qed.

(* ---- GetDepthAtResolution ---- *)
Lemma depth_good od res r : visits_all od -> good r -> forall maxd, deepest (stored_nodes hs) maxd ->
  exists r' o, returns (fun n => get_depth_at_resolution n od res r) r' o /\ good r' /\ grows r r' /\ depth_is (i_spacing (c_info (r_cfg r))) res maxd o.
Proof.
  intros VA GR maxd MD. destruct (all_nodes_good od r VA GR) as (r1 & l & E & G1 & G & (_ & X) & _).
  exists r1, (depth_for l (i_spacing (c_info (r_cfg r1))) res). split; [apply (returns_then _ _ _ _ _ _ E), returns_const|]. split; [exact G1|]. split; [exact G|].
  destruct G as (-> & _). assert (max_depth_of l = maxd) as M by (eapply deepest_unique; [exact stored_depth|apply max_depth_spec; auto using stored_depth|exact MD]).
  unfold depth_for, depth_is. rewrite M. split; intros ->; [reflexivity|].
  assert (-1 <= maxd). { destruct MD as (_ & [(-> & _)|(n & N & <-)]); [lia|]. pose proof (stored_depth n N). lia. }
  exact (depth_loop_spec (i_spacing (c_info (r_cfg r))) res maxd (Z.to_nat (maxd + 1)) 0 ltac:(lia) ltac:(lia)).
Qed.
Lemma deepest_exists : exists d, deepest (stored_nodes hs) d.
Proof.
  exists (max_depth_of (flat_map (fun i => map (fun e => mkNode e (pi_key i)) (nodes_of_ents (pi_ents i))) hs)).
  apply max_depth_spec; [|exact stored_depth]. intros n. rewrite in_flat_map. split.
  - intros (i & I1 & I2). apply in_map_iff in I2. destruct I2 as (e & <- & E). apply filter_In in E. destruct E as (E & Q). apply negb_true_iff in Q. exists i, e. repeat split; auto.
  - intros (i & e & A1 & A2 & A3 & A4 & A5 & ->). exists i. split; auto. apply in_map_iff. exists e. split; auto. apply filter_In. now rewrite A4.
Qed.
Lemma exactly_filter l (P : node -> Prop) c : exactly l P -> exactly (filter c l) (fun n => P n /\ c n = true).
Proof.
  intros (N & E). split.
  - clear E. induction l as [|a l IH]; [constructor|]. cbn [map] in N. inversion N as [|? ? N1 N2]; subst. cbn [filter]. destruct (c a); [|auto]. cbn [map]. constructor; auto.
    intros I. apply N1. apply in_map_iff in I. destruct I as (b & E & I). apply filter_In in I. rewrite <- E. apply in_map. tauto.
  - intros n. now rewrite filter_In, E.
Qed.
Lemma select_good cond od res r : visits_all od -> good r -> forall r1 d, returns (fun n => get_depth_at_resolution n od res r) r1 (Ok d) ->
  exists r' l, returns (fun n => select_nodes cond n od res r) r' (Ok l) /\ good r' /\ grows r r' /\ exactly l (fun n => stored_nodes hs n /\ cond (c_hdr (r_cfg r)) d n = true).
Proof.
  intros VA GR r1 d RD. destruct deepest_exists as (md & MD). destruct (depth_good od res r VA GR md MD) as (r1' & o & E & G1 & G & _).
  assert (r1' = r1 /\ o = Ok d) as (-> & ->).
  { destruct E as (n1 & E), RD as (n2 & E2). specialize (E (Nat.max n1 n2) ltac:(lia)). specialize (E2 (Nat.max n1 n2) ltac:(lia)). rewrite E in E2. injection E2 as -> ->. auto. }
  destruct (all_nodes_good od r1 VA G1) as (r2 & l & E2 & G2 & G' & X & _). exists r2, (filter (cond (c_hdr (r_cfg r2)) d) l).
  split; [apply (returns_then _ _ _ _ _ _ RD); apply (returns_then _ _ _ _ _ _ E2), returns_const|]. split; [exact G2|]. split; [eapply grows_trans; eauto|].
  assert (r_cfg r2 = r_cfg r) as -> by (destruct (grows_trans _ _ _ G G') as (C & _); exact C). now apply exactly_filter.
Qed.
End Stored.
