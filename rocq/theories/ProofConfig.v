(* ProofConfig.v - configurations: isolation, overrides, aliasing (C27, C59, C60, C64) *)
From Verif Require Import BaseFacts ModelFloat ModelGeom ModelPoint ModelHeader ModelVlr ModelExtents ModelConfig SpecPoint SpecConfig
  ProofFloat ProofPoint ProofHeader ProofExtents.
From Coq Require Import ZifyBool.
Open Scope Z_scope.

(* ---- list facts ---- *)
Lemma upd_length {A} n (v : A) l : length (upd n v l) = length l.
Proof.
  unfold upd. rewrite app_length. pose proof (skipn_length n l). pose proof (firstn_length n l).
  destruct (skipn n l); cbn in *; lia.
Qed.
Lemma upd_nth {A} n (v : A) l i : nth_error (upd n v l) i = if (i =? n)%nat && (n <? length l)%nat then Some v else nth_error l i.
Proof.
  unfold upd. revert l i. induction n as [|n IH]; intros l i.
  - destruct l as [|a l]; cbn; [now rewrite andb_false_r|]. destruct i; reflexivity.
  - destruct l as [|a l]; cbn [firstn skipn app length]; [rewrite andb_false_r; reflexivity|].
    destruct i as [|i]; [reflexivity|]. cbn [nth_error]. rewrite IH.
    replace ((S i =? S n)%nat) with ((i =? n)%nat) by reflexivity. replace ((S n <? S (length l))%nat) with ((n <? length l)%nat) by reflexivity. reflexivity.
Qed.
Lemma upd_nth_other {A} n (v : A) l i : i <> n -> nth_error (upd n v l) i = nth_error l i.
Proof. intros H. rewrite upd_nth. destruct (Nat.eqb_spec i n); [contradiction|reflexivity]. Qed.
Lemma upd_nth_same {A} n (v : A) l : (n < length l)%nat -> nth_error (upd n v l) n = Some v.
Proof. intros H. rewrite upd_nth, Nat.eqb_refl. destruct (Nat.ltb_spec n (length l)); [reflexivity|lia]. Qed.
Lemma nth_app_l {A} (l r : list A) i : (i < length l)%nat -> nth_error (l ++ r) i = nth_error l i.
Proof. intros; now apply nth_error_app1. Qed.
Lemma nth_lt {A} (l : list A) i v : nth_error l i = Some v -> (i < length l)%nat.
Proof. intros H. apply nth_error_Some. congruence. Qed.
Lemma nth_last {A} (l : list A) v : nth_error (l ++ [v]) (length l) = Some v.
Proof. rewrite nth_error_app2, Nat.sub_diag; [reflexivity|lia]. Qed.
Lemma nth_snoc {A} (l : list A) v i w : nth_error (l ++ [v]) i = Some w -> (i < length l)%nat /\ nth_error l i = Some w \/ i = length l /\ w = v.
Proof.
  intros H. destruct (Nat.ltb_spec i (length l)) as [L|L]; [left; rewrite nth_app_l in H by assumption; auto|].
  right. pose proof (nth_lt _ _ _ H) as B. rewrite app_length in B. cbn in B. assert (i = length l) by lia. subst i.
  rewrite nth_last in H. split; [reflexivity|congruence].
Qed.

(* ---- dereferencing ---- *)
Lemma deref_cells_ext cs cs' slots : (forall a, In a slots -> nth_error cs' a = nth_error cs a) -> deref_cells cs' slots = deref_cells cs slots.
Proof.
  induction slots as [|a l IH]; intros H; cbn [deref_cells]; auto. rewrite H by now left. rewrite IH; [reflexivity|]. intros b I. apply H. now right.
Qed.
Lemma deref_cells_seq cs l : deref_cells (cs ++ l) (seq (length cs) (length l)) = Some l.
Proof.
  revert cs. induction l as [|e l IH]; intros cs; cbn [length seq deref_cells]; auto.
  rewrite nth_error_app2, Nat.sub_diag by lia. cbn [nth_error].
  specialize (IH (cs ++ [e])). rewrite <- app_assoc in IH. cbn [app] in IH. rewrite app_length in IH. cbn [length] in IH.
  replace (length cs + 1)%nat with (S (length cs)) in IH by lia. rewrite IH. reflexivity.
Qed.

Lemma deref_alloc hp c : deref (fst (alloc_cfg hp c)) (snd (alloc_cfg hp c)) = Some c.
Proof.
  unfold deref, alloc_cfg, alloc_x. cbn [fst snd hp_h hp_i hp_c hp_x cp_h cp_i cp_x cp_wkt cp_ebs].
  rewrite !nth_last. unfold deref_x. cbn [hp_x hp_c]. rewrite nth_last. cbn [xo_slots xo_fmt xo_ext].
  rewrite deref_cells_seq. destruct c as [? ? ? ? [? ? ?]]; reflexivity.
Qed.

(* ---- separation of the objects of a world ---- *)
Definition bounded (hp : heap) (p : cfgp) : Prop :=
  (cp_h p < length (hp_h hp))%nat /\ (cp_i p < length (hp_i hp))%nat /\
  exists o, nth_error (hp_x hp) (cp_x p) = Some o /\ Forall (fun a => (a < length (hp_c hp))%nat) (xo_slots o).
Definition apart (hp : heap) (p q : cfgp) : Prop :=
  cp_h p <> cp_h q /\ cp_i p <> cp_i q /\ cp_x p <> cp_x q /\
  forall o o' a, nth_error (hp_x hp) (cp_x p) = Some o -> nth_error (hp_x hp) (cp_x q) = Some o' -> In a (xo_slots o) -> ~ In a (xo_slots o').
Definition separated (w : world) : Prop :=
  (forall i p, nth_error (wd_cfgs w) i = Some p -> bounded (wd_heap w) p) /\
  (forall i j p q, i <> j -> nth_error (wd_cfgs w) i = Some p -> nth_error (wd_cfgs w) j = Some q -> apart (wd_heap w) p q).

Lemma push_separated w c : separated w -> separated (push_cfg w c).
Proof.
  intros (B & S). unfold push_cfg, alloc_cfg, alloc_x. set (hp := wd_heap w) in *. cbn.
  split; cbn [wd_cfgs wd_heap].
  - intros i p H. unfold bounded. cbn [hp_h hp_i hp_c hp_x]. destruct (nth_snoc _ _ _ _ H) as [(L & E)|(_ & ->)].
    + destruct (B _ _ E) as (B1 & B2 & o & Eo & Fo). rewrite !app_length. cbn [length]. split; [lia|]. split; [lia|].
      exists o. rewrite nth_app_l by (apply nth_lt in Eo; exact Eo). split; [exact Eo|].
      eapply Forall_impl; [|exact Fo]. cbn. intros; lia.
    + cbn [cp_h cp_i cp_x]. rewrite !app_length. cbn [length]. split; [lia|]. split; [lia|].
      eexists. rewrite nth_last. split; [reflexivity|]. cbn [xo_slots]. apply Forall_forall. intros a I. apply in_seq in I. lia.
  - assert (OLD : forall i p, nth_error (wd_cfgs w) i = Some p -> apart (mkHeap (hp_h hp ++ [c_hdr c]) (hp_i hp ++ [c_info c]) (hp_c hp ++ xs_items (c_exts c))
       (hp_x hp ++ [mkXobj (xs_fmt (c_exts c)) (xs_ext (c_exts c)) (seq (length (hp_c hp)) (length (xs_items (c_exts c))))])) p
       (mkCfgp (length (hp_h hp)) (length (hp_i hp)) (length (hp_x hp)) (c_wkt c) (c_ebs c))).
    { intros i p E. destruct (B _ _ E) as (B1 & B2 & o & Eo & Fo). pose proof (nth_lt _ _ _ Eo) as B3. unfold apart.
      cbn [cp_h cp_i cp_x hp_x]. split; [lia|]. split; [lia|]. split; [lia|].
      intros o1 o2 a E1 E2 I1 I2. rewrite nth_app_l in E1 by exact B3. rewrite nth_last in E2. injection E2 as <-. cbn [xo_slots] in I2.
      assert (o1 = o) by congruence; subst o1. rewrite Forall_forall in Fo. apply Fo in I1. apply in_seq in I2. lia. }
    intros i j p q N H1 H2.
    destruct (nth_snoc _ _ _ _ H1) as [(L1 & E1)|(-> & ->)]; destruct (nth_snoc _ _ _ _ H2) as [(L2 & E2)|(-> & ->)].
    + destruct (S i j p q N E1 E2) as (A1 & A2 & A3 & A4). destruct (B _ _ E1) as (_ & _ & o & Eo & _). destruct (B _ _ E2) as (_ & _ & o' & Eo' & _).
      unfold apart. cbn [hp_x]. repeat split; auto. intros x y a Ex Ey. rewrite nth_app_l in Ex by (apply nth_lt in Eo; exact Eo).
      rewrite nth_app_l in Ey by (apply nth_lt in Eo'; exact Eo'). eauto.
    + eauto.
    + destruct (OLD _ _ E2) as (A1 & A2 & A3 & A4). unfold apart. repeat split; auto. intros x y a Ex Ey I1 I2. eapply A4; eauto.
    + contradiction.
Qed.
Lemma push_value w c i : separated w -> (i < length (wd_cfgs w))%nat -> value (push_cfg w c) i = value w i.
Proof.
  intros (B & _) L. unfold value, push_cfg. destruct (alloc_cfg (wd_heap w) c) as (hp', p') eqn:A. cbn [wd_cfgs wd_heap].
  rewrite nth_app_l by assumption. destruct (nth_error (wd_cfgs w) i) as [p|] eqn:E; [|reflexivity].
  destruct (B _ _ E) as (B1 & B2 & o & Eo & Fo). unfold alloc_cfg, alloc_x in A. injection A as <- <-.
  unfold deref, deref_x. cbn [hp_h hp_i hp_c hp_x]. rewrite !nth_app_l by first [assumption | apply nth_lt in Eo; exact Eo].
  rewrite Eo. rewrite (deref_cells_ext (hp_c (wd_heap w))); [reflexivity|].
  intros a I. rewrite Forall_forall in Fo. apply nth_app_l. auto.
Qed.
Lemma push_new w c : value (push_cfg w c) (length (wd_cfgs w)) = Some c.
Proof.
  unfold value, push_cfg. destruct (alloc_cfg (wd_heap w) c) as (hp', p') eqn:A. cbn [wd_cfgs wd_heap]. rewrite nth_last.
  pose proof (deref_alloc (wd_heap w) c) as D. rewrite A in D. exact D.
Qed.


Lemma lift_ok {A} (o : option A) a : lift o = Ok a <-> o = Some a.
Proof. destruct o; cbn; split; intros H; try discriminate; congruence. Qed.

Lemma step_cases w op w' : cfg_step w op = Ok w' -> separated w -> no_sharing op ->
  separated w' /\ (length (wd_cfgs w) <= length (wd_cfgs w'))%nat /\
  forall i, (i < length (wd_cfgs w))%nat -> target op <> Some i -> value w' i = value w i.
Proof.
  intros E Sp NS. pose proof Sp as (B & S).
  assert (PUSH : forall c, w' = push_cfg w c -> separated w' /\ (length (wd_cfgs w) <= length (wd_cfgs w'))%nat /\
     forall i, (i < length (wd_cfgs w))%nat -> target op <> Some i -> value w' i = value w i).
  { intros c ->. split; [now apply push_separated|]. split.
    - unfold push_cfg. destruct (alloc_cfg _ _). cbn [wd_cfgs]. rewrite app_length. lia.
    - intros i L _. now apply push_value. }
  destruct op; cbn [cfg_step target no_sharing] in *.
  - apply bind_ok in E. destruct E as (c & _ & E). injection E as <-. eauto.
  - apply bind_ok in E. destruct E as (c0 & _ & E). apply bind_ok in E. destruct E as (c & _ & E). injection E as <-. eauto.
  - apply bind_ok in E. destruct E as (c0 & _ & E). apply bind_ok in E. destruct E as (c & _ & E). injection E as <-. eauto.
  - (* header *)
    clear PUSH. apply bind_ok in E. destruct E as (p & Ep & E). apply lift_ok in Ep. injection E as <-. cbn [wd_cfgs wd_heap].
    split; [|split; [lia|]].
    + split; cbn [wd_cfgs wd_heap].
      * intros k q H. destruct (B _ _ H) as (B1 & B2 & B3). unfold bounded. cbn [hp_h hp_i hp_c hp_x]. rewrite upd_length. auto.
      * intros k j q r N H1 H2. exact (S _ _ _ _ N H1 H2).
    + intros k L T. unfold value. cbn [wd_cfgs wd_heap]. destruct (nth_error (wd_cfgs w) k) as [q|] eqn:Eq; [|reflexivity].
      assert (N : k <> i) by congruence. destruct (S _ _ _ _ N Eq Ep) as (A1 & _).
      unfold deref, deref_x. cbn [hp_h hp_i hp_c hp_x]. now rewrite upd_nth_other.
  - clear PUSH. apply bind_ok in E. destruct E as (p & Ep & E). apply lift_ok in Ep. injection E as <-. cbn [wd_cfgs wd_heap].
    split; [|split; [lia|]].
    + split; cbn [wd_cfgs wd_heap].
      * intros k q H. destruct (B _ _ H) as (B1 & B2 & B3). unfold bounded. cbn [hp_h hp_i hp_c hp_x]. rewrite upd_length. auto.
      * intros k j q r N H1 H2. exact (S _ _ _ _ N H1 H2).
    + intros k L T. unfold value. cbn [wd_cfgs wd_heap]. destruct (nth_error (wd_cfgs w) k) as [q|] eqn:Eq; [|reflexivity].
      assert (N : k <> i) by congruence. destruct (S _ _ _ _ N Eq Ep) as (_ & A1 & _).
      unfold deref, deref_x. cbn [hp_h hp_i hp_c hp_x]. now rewrite (upd_nth_other (cp_i p)).
  - clear PUSH. apply bind_ok in E. destruct E as (p & Ep & E). apply lift_ok in Ep.
    apply bind_ok in E. destruct E as (o & Eo & E). apply lift_ok in Eo.
    apply bind_ok in E. destruct E as (a & Ea & E). apply lift_ok in Ea. injection E as <-. cbn [wd_cfgs wd_heap].
    split; [|split; [lia|]].
    + split; cbn [wd_cfgs wd_heap].
      * intros k q H. destruct (B _ _ H) as (B1 & B2 & x & Ex & Fx). unfold bounded. cbn [hp_h hp_i hp_c hp_x]. split; [exact B1|]. split; [exact B2|].
        exists x. split; [exact Ex|]. rewrite upd_length. exact Fx.
      * intros k j q r N H1 H2. exact (S _ _ _ _ N H1 H2).
    + intros k L T. unfold value. cbn [wd_cfgs wd_heap]. destruct (nth_error (wd_cfgs w) k) as [q|] eqn:Eq; [|reflexivity].
      assert (N : k <> i) by congruence. destruct (S _ _ _ _ N Eq Ep) as (_ & _ & _ & A).
      destruct (B _ _ Eq) as (_ & _ & x & Ex & _).
      unfold deref, deref_x. cbn [hp_h hp_i hp_c hp_x]. rewrite Ex. rewrite (deref_cells_ext (hp_c (wd_heap w))); [reflexivity|].
      intros b I. apply upd_nth_other. intros ->. eapply A; eauto. apply nth_error_In in Ea. exact Ea.
  - clear PUSH. subst j. apply bind_ok in E. destruct E as (p & Ep & E). apply lift_ok in Ep.
    rewrite Ep in E. cbn [lift bind] in E. apply bind_ok in E. destruct E as (o & Eo & E). apply lift_ok in Eo.
    rewrite Eo in E. cbn [lift bind] in E. apply bind_ok in E. destruct E as (a & Ea & E). apply lift_ok in Ea.
    apply bind_ok in E. destruct E as (old & _ & E). injection E as <-. cbn [wd_cfgs wd_heap].
    assert (SUB : forall b, In b (upd slot a (xo_slots o)) -> In b (xo_slots o)).
    { intros b I. apply In_nth_error in I. destruct I as (n & I). rewrite upd_nth in I. destruct ((n =? slot)%nat && _).
      - injection I as <-. eapply nth_error_In; eauto.
      - eapply nth_error_In; eauto. }
    split; [|split; [lia|]].
    + split; cbn [wd_cfgs wd_heap].
      * intros k q H. destruct (B _ _ H) as (B1 & B2 & x & Ex & Fx). unfold bounded. cbn [hp_h hp_i hp_c hp_x]. split; [exact B1|]. split; [exact B2|].
        rewrite upd_nth. destruct ((cp_x q =? cp_x p)%nat && (cp_x p <? length (hp_x (wd_heap w)))%nat) eqn:C; [|eauto].
        eexists. split; [reflexivity|]. cbn [xo_slots]. apply Forall_forall. intros b I. apply SUB in I.
        destruct (B _ _ Ep) as (_ & _ & y & Ey & Fy). assert (y = o) by congruence; subst y. rewrite Forall_forall in Fy. auto.
      * intros k j q r N H1 H2. destruct (S _ _ _ _ N H1 H2) as (A1 & A2 & A3 & A4). unfold apart. cbn [hp_x]. repeat split; auto.
        intros x y b Ex Ey I1 I2. rewrite upd_nth in Ex, Ey.
        destruct ((cp_x q =? cp_x p)%nat && (cp_x p <? length (hp_x (wd_heap w)))%nat) eqn:C1; destruct ((cp_x r =? cp_x p)%nat && (cp_x p <? length (hp_x (wd_heap w)))%nat) eqn:C2.
        -- lia.
        -- injection Ex as <-. cbn [xo_slots] in I1. apply SUB in I1. assert (Q : cp_x q = cp_x p) by lia. rewrite <- Q in Eo. eapply A4; eauto.
        -- injection Ey as <-. cbn [xo_slots] in I2. apply SUB in I2. assert (Q : cp_x r = cp_x p) by lia. rewrite <- Q in Eo. eapply A4; eauto.
        -- eapply A4; eauto.
    + intros k L T. unfold value. cbn [wd_cfgs wd_heap]. destruct (nth_error (wd_cfgs w) k) as [q|] eqn:Eq; [|reflexivity].
      assert (N : k <> i) by congruence. destruct (S _ _ _ _ N Eq Ep) as (_ & _ & A & _).
      unfold deref, deref_x. cbn [hp_h hp_i hp_c hp_x]. now rewrite upd_nth_other.
Qed.

Lemma empty_separated : separated empty_world.
Proof. split; cbn; intros i; destruct i; discriminate. Qed.

Lemma run_separated ops : forall w, separated w -> Forall no_sharing ops ->
  separated (cfg_run w ops) /\ (length (wd_cfgs w) <= length (wd_cfgs (cfg_run w ops)))%nat /\
  forall i, (i < length (wd_cfgs w))%nat -> Forall (fun op => target op <> Some i) ops -> value (cfg_run w ops) i = value w i.
Proof.
  induction ops as [|op ops IH]; intros w S F; cbn [cfg_run]; [split; [exact S|]; split; [lia|]; auto|].
  inversion F; subst. destruct (cfg_step w op) as [w'| |] eqn:E.
  - destruct (step_cases _ _ _ E S H1) as (S' & L & V). destruct (IH w' S' H2) as (S2 & L2 & V2). split; [exact S2|]. split; [lia|].
    intros i Hi T. inversion T; subst. rewrite V2 by (auto; lia). auto.
  - destruct (IH w S H2) as (S2 & L2 & V2). split; [exact S2|]. split; [exact L2|]. intros i Hi T. inversion T; subst. auto.
  - destruct (IH w S H2) as (S2 & L2 & V2). split; [exact S2|]. split; [exact L2|]. intros i Hi T. inversion T; subst. auto.
Qed.

Lemma isolation ops ops' i : Forall no_sharing ops -> Forall no_sharing ops' ->
  (i < length (wd_cfgs (cfg_run empty_world ops)))%nat -> Forall (fun op => target op <> Some i) ops' ->
  value (cfg_run (cfg_run empty_world ops) ops') i = value (cfg_run empty_world ops) i.
Proof.
  intros F F' L T. destruct (run_separated ops _ empty_separated F) as (S & _). destruct (run_separated ops' _ S F') as (_ & _ & V). auto.
Qed.
(* every configuration of a reachable world can be read *)
Lemma value_defined ops i : Forall no_sharing ops -> (i < length (wd_cfgs (cfg_run empty_world ops)))%nat ->
  exists c, value (cfg_run empty_world ops) i = Some c.
Proof.
  intros F L. destruct (run_separated ops _ empty_separated F) as ((B & _) & _). unfold value.
  destruct (nth_error (wd_cfgs _) i) as [p|] eqn:E; [|apply nth_error_None in E; lia].
  destruct (B _ _ E) as (B1 & B2 & o & Eo & Fo). unfold deref, deref_x.
  destruct (nth_error (hp_h _) _) eqn:E1; [|apply nth_error_None in E1; lia].
  destruct (nth_error (hp_i _) _) eqn:E2; [|apply nth_error_None in E2; lia]. rewrite Eo.
  assert (D : exists es, deref_cells (hp_c (wd_heap (cfg_run empty_world ops))) (xo_slots o) = Some es).
  { clear Eo. induction Fo as [|a s La _ (es & IH)]; [exists []; reflexivity|]. cbn [deref_cells].
    destruct (nth_error (hp_c _) a) eqn:E3; [|apply nth_error_None in E3; lia]. rewrite IH. eauto. }
  destruct D as (es & ->). eauto.
Qed.

(* changing a configuration through its own pointers is visible *)
Lemma own_header w i h w' c : value w i = Some c -> cfg_step w (CSetHdr i h) = Ok w' -> 
  value w' i = Some (mkCfg h (c_wkt c) (c_ebs c) (c_info c) (c_exts c)).
Proof.
  intros V E. unfold cfg_step in E. apply bind_ok in E. destruct E as (p & Ep & E). apply lift_ok in Ep. injection E as <-.
  unfold value in *. cbn [wd_cfgs wd_heap]. rewrite Ep in *. unfold deref, deref_x in *. cbn [hp_h hp_i hp_c hp_x].
  destruct (nth_error (hp_h (wd_heap w)) (cp_h p)) eqn:E1; [|discriminate]. rewrite upd_nth_same by (eapply nth_lt; eauto).
  destruct (nth_error (hp_i _) _); [|discriminate]. destruct (nth_error (hp_x _) _); [|discriminate]. destruct (deref_cells _ _); [|discriminate].
  injection V as <-. reflexivity.
Qed.
Lemma own_info w i v w' c : value w i = Some c -> cfg_step w (CSetInfo i v) = Ok w' -> 
  value w' i = Some (mkCfg (c_hdr c) (c_wkt c) (c_ebs c) v (c_exts c)).
Proof.
  intros V E. unfold cfg_step in E. apply bind_ok in E. destruct E as (p & Ep & E). apply lift_ok in Ep. injection E as <-.
  unfold value in *. cbn [wd_cfgs wd_heap]. rewrite Ep in *. unfold deref, deref_x in *. cbn [hp_h hp_i hp_c hp_x].
  destruct (nth_error (hp_h (wd_heap w)) (cp_h p)) eqn:E1; [|discriminate].
  destruct (nth_error (hp_i _) _) eqn:E2; [|discriminate]. rewrite upd_nth_same by (eapply nth_lt; eauto).
  destruct (nth_error (hp_x _) _); [|discriminate]. destruct (deref_cells _ _); [|discriminate].
  injection V as <-. reflexivity.
Qed.
Lemma deref_cells_nth cs slots es k a : deref_cells cs slots = Some es -> nth_error slots k = Some a -> nth_error es k = nth_error cs a.
Proof.
  revert es k. induction slots as [|s r IH]; intros es k D E; [destruct k; discriminate|]. cbn [deref_cells] in D.
  destruct (nth_error cs s) as [e|] eqn:Es; [|discriminate]. destruct (deref_cells cs r) as [es'|] eqn:Er; [|discriminate]. injection D as <-.
  destruct k as [|k]; cbn [nth_error] in *; [injection E as <-; auto|]. eauto.
Qed.
Lemma own_extent ops i slot e w' : Forall no_sharing ops -> let w := cfg_run empty_world ops in
  cfg_step w (CSetExtent i slot e) = Ok w' ->
  exists c, value w' i = Some c /\ nth_error (xs_items (c_exts c)) slot = Some e.
Proof.
  intros F w E. destruct (run_separated ops _ empty_separated F) as (S & _). fold w in S.
  destruct (step_cases _ _ _ E S I) as ((B' & _) & _). pose proof S as (B & _).
  unfold cfg_step in E. apply bind_ok in E. destruct E as (p & Ep & E). apply lift_ok in Ep.
  apply bind_ok in E. destruct E as (o & Eo & E). apply lift_ok in Eo.
  apply bind_ok in E. destruct E as (a & Ea & E). apply lift_ok in Ea. injection E as <-.
  destruct (B _ _ Ep) as (B1 & B2 & o' & Eo' & Fo). assert (o' = o) by congruence; subst o'.
  unfold value, deref, deref_x in *. cbn [wd_cfgs wd_heap hp_h hp_i hp_c hp_x] in *. rewrite Ep, Eo.
  destruct (nth_error (hp_h _) _) eqn:E1; [|apply nth_error_None in E1; lia].
  destruct (nth_error (hp_i _) _) eqn:E2; [|apply nth_error_None in E2; lia].
  assert (La : (a < length (hp_c (wd_heap w)))%nat) by (rewrite Forall_forall in Fo; apply Fo; eapply nth_error_In; eauto).
  assert (D : exists es, deref_cells (upd a e (hp_c (wd_heap w))) (xo_slots o) = Some es).
  { clear Ea Eo Eo' B' . induction Fo as [|b s Lb _ IH]; [exists []; reflexivity|]. destruct IH as (es & IH). cbn [deref_cells].
    destruct (nth_error (upd a e (hp_c (wd_heap w))) b) eqn:E3; [|apply nth_error_None in E3; rewrite upd_length in E3; lia]. rewrite IH. eauto. }
  destruct D as (es & D). rewrite D. eexists. split; [reflexivity|]. cbn [c_exts xs_items].
  rewrite (deref_cells_nth _ _ _ _ _ D Ea). now rewrite upd_nth_same.
Qed.
(* a copy or a writer gets its own object, with the value its constructor computes *)
Lemma copy_value w i c w' : value w i = Some c -> cfg_step w (CCopy i) = Ok w' ->
  exists c', copy_config c = Ok c' /\ value w' (length (wd_cfgs w)) = Some c'.
Proof.
  intros V E. unfold cfg_step in E. rewrite V in E. cbn [lift bind] in E. apply bind_ok in E. destruct E as (c' & Ec & E). injection E as <-.
  exists c'. split; [exact Ec|]. apply push_new.
Qed.
Lemma writer_value w i v c w' : value w i = Some c -> cfg_step w (CWriter i v) = Ok w' ->
  exists c', init_writer c v = Ok c' /\ value w' (length (wd_cfgs w)) = Some c'.
Proof.
  intros V E. unfold cfg_step in E. rewrite V in E. cbn [lift bind] in E. apply bind_ok in E. destruct E as (c' & Ec & E). injection E as <-.
  exists c'. split; [exact Ec|]. apply push_new.
Qed.

(* ---- constructors and overrides ---- *)
Lemma base_size_throw fmt : ~ (6 <= fmt <= 8) -> base_size fmt = Throw.
Proof. intros H. unfold base_size. replace (fmt =? 6) with false by lia. replace (fmt =? 7) with false by lia. replace (fmt =? 8) with false by lia. reflexivity. Qed.
Lemma eb_total_nonneg items : Forall wf_eb items -> Forall (fun e => 0 <= eb_type e <= 30) items -> 0 <= eb_total items <= 255 * Z.of_nat (length items).
Proof.
  induction 1 as [|e l We _ IH]; intros F; [cbn; lia|]. inversion F; subst. cbn [eb_total fold_right length]. unfold eb_total in IH.
  pose proof (las_eb_size_range e We ltac:(lia)). specialize (IH H2). lia.
Qed.
Lemma default_ok : extent_ok default_extent. Proof. split; reflexivity. Qed.

Lemma new_laz_config_ok fmt s o wkt ebs copc : 6 <= fmt <= 8 -> Forall (fun e => 0 <= eb_type e <= 30) ebs ->
  new_laz_config fmt s o wkt ebs copc = Ok (mkLaz (new_header fmt (to_u 16 (las_base fmt + eb_total ebs)) s o copc) wkt ebs).
Proof.
  intros Hf F. unfold new_laz_config. replace ((fmt <? 6) || (8 <? fmt)) with false by lia. rewrite las_base_ok, num_bytes_from_eb_ok by assumption. reflexivity.
Qed.
Lemma small16 v : 0 <= v < 65536 -> to_u 16 v = v.
Proof. intros H. unfold to_u. apply Z.mod_small. change (2 ^ 16) with 65536. lia. Qed.
Lemma new_config_good fmt s o wkt ebs ext : 6 <= fmt <= 8 -> Forall (fun e => 0 <= eb_type e <= 30) ebs -> Forall wf_eb ebs ->
  Z.of_nat (length ebs) < 65536 -> las_base fmt + eb_total ebs < 65536 ->
  exists c, new_config fmt s o wkt ebs ext = Ok c /\ good_config c /\ h_fmt (c_hdr c) = fmt /\ h_scale (c_hdr c) = s /\ h_offset (c_hdr c) = o /\
    c_wkt c = wkt /\ c_ebs c = ebs /\ xs_ext (c_exts c) = ext /\ h_eb_size (c_hdr c) = Ok (eb_total ebs).
Proof.
  intros Hf F W L T. unfold new_config. rewrite new_laz_config_ok by assumption. cbn [bind z_hdr].
  pose proof (las_base_range fmt). pose proof (eb_total_nonneg ebs W F). rewrite small16 by lia.
  unfold new_extents. replace ((fmt <? 6) || (8 <? fmt)) with false by lia. rewrite num_extents_ok by lia. cbn [bind].
  eexists. split; [reflexivity|]. unfold good_config, shaped. cbn [c_hdr c_wkt c_ebs c_exts h_copc h_fmt h_scale h_offset h_reclen new_header xs_fmt xs_ext xs_items].
  rewrite repeat_length. pose proof (las_dims_range fmt). split; [|repeat split; auto].
  - repeat split; auto; try lia. apply Forall_forall. intros e I. apply repeat_spec in I. subst. apply default_ok.
  - unfold h_eb_size, eb_byte_size. cbn [h_fmt h_reclen new_header]. rewrite las_base_ok by assumption. cbn [bind]. rewrite small16 by lia. f_equal. lia.
Qed.

Lemma copy_config_good c : good_config c -> copy_config c = Ok c.
Proof.
  intros (Hc & _ & _ & _ & F & _). unfold copy_config. rewrite copy_extents_ok by assumption. cbn [bind]. unfold config_of. rewrite copy_extents_ok by assumption.
  cbn [bind]. destruct c as [h ? ? ? ?]. cbn [c_hdr] in *. destruct h; cbn in Hc. subst. reflexivity.
Qed.

Lemma reslot_items_ok o n fmt neb ext y : shaped o n -> 6 <= fmt <= 8 -> 0 <= neb < 65536 -> Forall extent_ok (xs_items o) ->
  reslot_extents o fmt neb ext = Ok y -> Forall extent_ok (xs_items y).
Proof.
  intros Ho Hf Hn F E. destruct (reslot_ok o n fmt neb ext Ho Hf Hn) as (l & E' & L & N). rewrite E' in E. injection E as <-. cbn [xs_items].
  assert (G : forall i e, nth_error (xs_items o) i = Some e -> extent_ok e) by (intros i e H; rewrite Forall_forall in F; apply F; eapply nth_error_In; eauto).
  apply Forall_forall. intros e I. apply In_nth_error in I. destruct I as (i & I). pose proof (nth_lt _ _ _ I) as Li. rewrite N in I by exact Li.
  pose proof default_ok.
  repeat match type of I with context [if ?b then _ else _] => destruct b end;
    first [eapply G; exact I | injection I as <-; assumption].
Qed.

Lemma init_writer_spec c v : good_config c -> let fmt := ov (ov_fmt v) (h_fmt (c_hdr c)) in let ebs := ov (ov_ebs v) (c_ebs c) in
  6 <= fmt <= 8 -> Forall wf_eb ebs -> Forall (fun e => 0 <= eb_type e <= 30) ebs -> Z.of_nat (length ebs) < 65536 -> las_base fmt + eb_total ebs < 65536 ->
  exists c', init_writer c v = Ok c' /\ good_config c' /\
    h_fmt (c_hdr c') = fmt /\ h_scale (c_hdr c') = ov (ov_scale v) (h_scale (c_hdr c)) /\ h_offset (c_hdr c') = ov (ov_offset v) (h_offset (c_hdr c)) /\
    c_wkt c' = ov (ov_wkt v) (c_wkt c) /\ c_ebs c' = ebs /\ xs_ext (c_exts c') = ov (ov_ext v) (xs_ext (c_exts c)) /\
    c_info c' = c_info c /\ same_identity (c_hdr c') (c_hdr c) /\
    carried (c_exts c) (Z.of_nat (length (c_ebs c))) (c_exts c') (Z.of_nat (length ebs)).
Proof.
  intros G. cbv zeta. set (fmt := ov (ov_fmt v) (h_fmt (c_hdr c))). set (ebs := ov (ov_ebs v) (c_ebs c)). intros Hf W T L R. pose proof G as (Gc & Gf & Gx & Gs & Ge & Gt & Gr).
  unfold init_writer. destruct (any_override v) eqn:A.
  - fold fmt ebs. clearbody fmt ebs. rewrite copy_extents_ok by assumption. cbn [bind]. rewrite las_base_ok, num_bytes_from_eb_ok by assumption. cbn [bind].
    pose proof (las_base_range fmt) as RB. pose proof (eb_total_nonneg ebs W T). rewrite small16 by lia.
    destruct (reslot_spec (c_exts c) _ fmt (Z.of_nat (length ebs)) (ov (ov_ext v) (xs_ext (c_exts c))) Gs Hf ltac:(lia)) as (y & E & S & Ef & Ee & D1 & D2 & D3).
    assert (OK : Forall extent_ok (xs_items y)) by (eapply reslot_items_ok; [exact Gs|exact Hf| |exact Ge|exact E]; lia).
    rewrite E. cbn [bind]. unfold config_of at 1. rewrite copy_extents_ok by assumption. cbn [bind].
    match goal with |- exists c', copy_config ?k = Ok c' /\ _ => set (k0 := k) end.
    assert (K : good_config k0). { unfold good_config, k0. cbn [c_hdr c_ebs c_exts header_with header_with_copc h_copc h_fmt h_reclen]. split; [reflexivity|]. split; [lia|]. split; [exact Ef|]. split; [exact S|]. split; [exact OK|]. split; [exact T|reflexivity]. }
    rewrite copy_config_good by assumption. exists k0. split; [reflexivity|]. split; [exact K|]. unfold k0.
    cbn [c_hdr c_ebs c_exts c_wkt c_info header_with header_with_copc h_copc h_fmt h_scale h_offset h_reclen]. repeat (split; [reflexivity || assumption|]).
    split; [unfold same_identity; cbn; repeat split|]. unfold carried. rewrite Ef. auto.
  - unfold any_override in A. destruct v as [o1 o2 o3 o4 o5 o6]. cbn in *. destruct o1, o2, o3, o4, o5, o6; try discriminate A. cbn [ov] in *.
    rewrite copy_config_good by assumption. exists c. split; [reflexivity|]. split; [exact G|]. repeat (split; [reflexivity|]).
    split; [unfold same_identity; repeat split|]. unfold carried. split; [exact Gs|]. rewrite Z.eqb_refl. repeat split; auto. intros d H1 H2. contradiction.
Qed.
Lemma init_writer_none c : good_config c -> init_writer c no_overrides = Ok c.
Proof. intros G. unfold init_writer. cbn. now apply copy_config_good. Qed.
Lemma init_writer_bad_format c v : good_config c -> ~ (6 <= ov (ov_fmt v) (h_fmt (c_hdr c)) <= 8) -> init_writer c v = Throw.
Proof.
  intros (_ & Gf & _ & _ & Ge & _) N. unfold init_writer. destruct (any_override v) eqn:A.
  - rewrite copy_extents_ok by assumption. cbn [bind]. rewrite base_size_throw by assumption. reflexivity.
  - unfold any_override in A. destruct (ov_fmt v); [discriminate A|]. cbn in N. contradiction.
Qed.

(* ---- C64: the re-slotting constructor shares the extents it copies ---- *)
Lemma reslot_x_shares hp x o n fmt neb ext :
  nth_error (hp_x hp) x = Some o -> 6 <= xo_fmt o <= 8 -> 0 <= n < 65536 -> Z.of_nat (length (xo_slots o)) = las_dims (xo_fmt o) + n ->
  6 <= fmt <= 8 -> 0 <= neb < 65536 ->
  exists hp' y o', reslot_x hp x fmt neb ext = Ok (hp', y) /\ nth_error (hp_x hp') y = Some o' /\ nth_error (hp_x hp') x = Some o /\ y <> x /\
    (forall i e, nth_error (hp_c hp) i = Some e -> nth_error (hp_c hp') i = Some e) /\
    forall i, (i < 14)%nat -> nth_error (xo_slots o') i = nth_error (xo_slots o) i.
Proof.
  intros Eo Hf Hn L Hf' Hneb. unfold reslot_x. rewrite Eo. cbn [lift bind].
  unfold new_extents. replace ((fmt <? 6) || (8 <? fmt)) with false by lia. rewrite num_extents_ok by assumption. cbn [bind].
  unfold alloc_x. cbn [xs_items xs_fmt xs_ext hp_x hp_h hp_i hp_c]. rewrite nth_last. cbn [lift bind xo_slots]. rewrite repeat_length.
  set (d := seq (length (hp_c hp)) (Z.to_nat (las_dims fmt + neb))).
  assert (Ld : Z.of_nat (length d) = las_dims fmt + neb) by (unfold d; rewrite seq_length; pose proof (las_dims_range fmt); lia). clearbody d.
  pose proof (las_dims_range fmt) as R1. pose proof (las_dims_range (xo_fmt o)) as R2.
  destruct (copy_range_ok (xo_slots o) 14 0 0 d) as (l1 & E1 & L1 & N1); [lia|lia|]. rewrite E1. cbn [bind].
  assert (S2 : exists l2, (if (6 <? fmt) && (6 <? xo_fmt o) then copy_range 3 14 14 (xo_slots o) l1 else Ok l1) = Ok l2 /\ length l2 = length l1 /\
     forall i, (i < 14)%nat -> nth_error l2 i = nth_error l1 i).
  { destruct ((6 <? fmt) && (6 <? xo_fmt o)) eqn:B; [|exists l1; auto].
    assert (D : 17 <= las_dims fmt /\ 17 <= las_dims (xo_fmt o)) by (unfold las_dims; destruct (fmt =? 6) eqn:?, (fmt =? 7) eqn:?, (xo_fmt o =? 6) eqn:?, (xo_fmt o =? 7) eqn:?; lia).
    destruct (copy_range_ok (xo_slots o) 3 14 14 l1) as (l2 & E2 & L2 & N2); [lia|lia|]. exists l2. split; [exact E2|]. split; [exact L2|].
    intros i Hi. rewrite N2. replace ((14 <=? i)%nat) with false by lia. reflexivity. }
  destruct S2 as (l2 & E2 & L2 & N2). rewrite E2. cbn [bind].
  assert (S3 : exists l3, (if (fmt =? 8) && (xo_fmt o =? 8) then copy_range 1 17 17 (xo_slots o) l2 else Ok l2) = Ok l3 /\ length l3 = length l2 /\
     forall i, (i < 14)%nat -> nth_error l3 i = nth_error l2 i).
  { destruct ((fmt =? 8) && (xo_fmt o =? 8)) eqn:B; [|exists l2; auto].
    assert (D : las_dims fmt = 18 /\ las_dims (xo_fmt o) = 18) by (replace fmt with 8 by lia; replace (xo_fmt o) with 8 by lia; split; reflexivity).
    destruct (copy_range_ok (xo_slots o) 1 17 17 l2) as (l3 & E3 & L3 & N3); [lia|lia|]. exists l3. split; [exact E3|]. split; [exact L3|].
    intros i Hi. rewrite N3. replace ((17 <=? i)%nat) with false by lia. reflexivity. }
  destruct S3 as (l3 & E3 & L3 & N3). rewrite E3. cbn [bind]. rewrite !base_dims_ok by assumption. cbn [bind].
  rewrite (small16 neb) by lia.
  assert (S4 : exists l4, (if neb =? to_u 64 (Z.of_nat (length (xo_slots o)) - las_dims (xo_fmt o))
             then copy_range (Z.to_nat neb) (Z.to_nat (las_dims (xo_fmt o))) (Z.to_nat (las_dims fmt)) (xo_slots o) l3 else Ok l3) = Ok l4 /\
     forall i, (i < 14)%nat -> nth_error l4 i = nth_error l3 i).
  { rewrite L. replace (las_dims (xo_fmt o) + n - las_dims (xo_fmt o)) with n by lia. unfold to_u. rewrite Z.mod_small by lia.
    destruct (neb =? n) eqn:B; [|exists l3; auto].
    destruct (copy_range_ok (xo_slots o) (Z.to_nat neb) (Z.to_nat (las_dims (xo_fmt o))) (Z.to_nat (las_dims fmt)) l3) as (l4 & E4 & L4 & N4); [lia|lia|].
    exists l4. split; [exact E4|]. intros i Hi. rewrite N4. replace ((Z.to_nat (las_dims fmt) <=? i)%nat) with false by lia. reflexivity. }
  destruct S4 as (l4 & E4 & N4). rewrite E4. cbn [bind].
  eexists _, _, (mkXobj fmt ext l4). split; [reflexivity|]. cbn [hp_x hp_c xo_slots]. pose proof (nth_lt _ _ _ Eo) as Lx.
  rewrite upd_nth_same by (rewrite app_length; cbn; lia). split; [reflexivity|].
  rewrite upd_nth_other by lia. rewrite nth_app_l by exact Lx. split; [exact Eo|]. split; [lia|]. split.
  - intros i e H. rewrite nth_app_l by (eapply nth_lt; eauto). exact H.
  - intros i Hi. rewrite N4, N3, N2, N1 by assumption. replace ((0 <=? i)%nat) with true by lia. replace ((i <? 0 + 14)%nat) with true by lia. cbn [andb]. f_equal. lia.
Qed.
