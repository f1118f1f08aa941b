(* PropPut.v - C96: extent objects given to a Writer; C97: assigning whole extents *)
From Verif Require Import Base BaseFacts ModelFloat ModelKey ModelGeom ModelEntry ModelPoint ModelPoints ModelHeader ModelVlr ModelExtents ModelConfig
  ModelStream ModelWriter ModelAccess ModelPut SpecKey SpecPoint SpecConfig SpecHeader SpecWriter SpecFile SpecReader SpecData SpecRound SpecCopy SpecPut ModelReader
  ProofFloat ProofKey ProofPoint ProofExtents ProofConfig ProofWriter ProofResults ProofReject SampleWriter SampleReader PropAccess PropData PropRound PropCopy PropOrder PropValid PropAssign.
Open Scope Z_scope.

(* ---- the extents in a Writer do not matter to other calls ---- *)
Definition itemw {A} (l : list extent) (x : writer * outcome A) : writer * outcome A := (with_items l (fst x), snd x).
Lemma items_chunk cd l h data n z b : write_chunk cd (c_hdr (w_cfg (with_items l h))) data n z b = write_chunk cd (c_hdr (w_cfg h)) data n z b.
Proof. reflexivity. Qed.
Lemma items_add cd l k data count z p w : do_add_node cd k data count z p (with_items l w) = itemw l (do_add_node cd k data count z p w).
Proof.
  unfold do_add_node, itemw. destruct (_ || _); [reflexivity|]. destruct (negb _); [reflexivity|]. rewrite items_chunk. cbn [with_items with_cfg w_base]. destruct (write_chunk _ _ _ _ _ _) as (b, [((off, size), n)| |]); reflexivity.
Qed.
Lemma items_add_node cd l k data p w : add_node cd k data p (with_items l w) = itemw l (add_node cd k data p w).
Proof. unfold add_node. destruct data as [|x r]; [reflexivity|]. cbn [with_items with_cfg w_cfg c_hdr]. destruct (_ =? 0); [reflexivity|]. destruct (negb _); [reflexivity|]. apply items_add. Qed.
Lemma some_itemw l x : some_node (itemw l x) = itemw l (some_node x).
Proof. destruct x as (w, [n| |]); reflexivity. Qed.
Lemma items_step cd op l w : (forall i e, op <> WSetExtent i e) -> wstep cd op (with_items l w) = itemw l (wstep cd op w).
Proof.
  intros NS. destruct op as [k data p|k hp pts p|k data n p|k p|h|i|i e]; cbn [wstep]; cbv zeta.
  - now rewrite items_add_node, some_itemw.
  - rewrite <- some_itemw. f_equal. unfold add_node_points. cbn [with_items with_cfg w_cfg c_hdr]. destruct (c_pts pts); [reflexivity|]. destruct (_ || _); [reflexivity|]. destruct (points_pack _ _ _ _); [apply items_add_node|reflexivity..].
  - rewrite <- some_itemw. f_equal. unfold add_node_compressed. destruct (_ =? 0); [reflexivity|apply items_add].
  - assert (E : change_node_page k p (with_items l w) = itemw l (change_node_page k p w)); [|rewrite E; destruct (change_node_page k p w) as (w', [u| |]); reflexivity].
    unfold change_node_page, itemw. destruct (negb _); [reflexivity|]. destruct (negb _); [reflexivity|]. cbn [with_items with_cfg w_loaded w_pages]. destruct (mget k (w_loaded w)) as [nd|]; [|reflexivity]. destruct (negb _); [reflexivity|]. destruct (key_eqb _ _); [reflexivity|]. cbv zeta. destruct (mget (n_page nd) _); reflexivity.
  - cbn [with_items with_cfg w_cfg c_hdr]. destruct (edit_header (c_hdr (w_cfg w)) h); reflexivity.
  - reflexivity.
  - now destruct (NS i e).
Qed.
Lemma items_twice l l' w : with_items l (with_items l' w) = with_items l w.
Proof. reflexivity. Qed.
Lemma items_same w : with_items (held_extents w) w = w.
Proof. destruct w as [b [h wk ebs i [f x l]] ld pg]. reflexivity. Qed.
Lemma wstep_exts cd op w w' o : (forall i e, op <> WSetExtent i e) -> wstep cd op w = (w', o) -> c_exts (w_cfg w') = c_exts (w_cfg w).
Proof.
  intros NS E. assert (D : forall k data n z p w w' o, do_add_node cd k data n z p w = (w', o) -> w_cfg w' = w_cfg w).
  { clear. intros k data n z p w w' o. unfold do_add_node. destruct (_ || _); [congruence|]. destruct (negb _); [congruence|]. destruct (write_chunk _ _ _ _ _ _) as (b, [((off, size), m)| |]); intros E; apply (f_equal fst) in E; cbn [fst] in E; subst w'; reflexivity. }
  assert (A : forall k data p w w' o, add_node cd k data p w = (w', o) -> w_cfg w' = w_cfg w).
  { intros k data p v v' q. unfold add_node. destruct data; [congruence|]. destruct (_ =? 0); [congruence|]. destruct (negb _); [congruence|]. apply D. }
  assert (SN : forall x, fst (some_node x) = fst x) by (intros (v, [n| |]); reflexivity).
  destruct op as [k data p|k hp pts p|k data n p|k p|h|i|s e]; cbn [wstep] in E; cbv zeta in E.
  - apply (f_equal fst) in E. rewrite SN in E. cbn [fst] in E. destruct (add_node cd k data p w) as (v, q) eqn:Q. cbn [fst] in E. subst v. now rewrite (A _ _ _ _ _ _ Q).
  - apply (f_equal fst) in E. rewrite SN in E. cbn [fst] in E. destruct (add_node_points cd k hp pts p w) as (v, q) eqn:Q. cbn [fst] in E. subst v. unfold add_node_points in Q. destruct (c_pts pts); [congruence|]. destruct (_ || _); [congruence|]. destruct (points_pack _ _ _ _); [now rewrite (A _ _ _ _ _ _ Q)|congruence..].
  - apply (f_equal fst) in E. rewrite SN in E. cbn [fst] in E. destruct (add_node_compressed cd k data n p w) as (v, q) eqn:Q. cbn [fst] in E. subst v. unfold add_node_compressed in Q. destruct (_ =? 0); [congruence|]. now rewrite (D _ _ _ _ _ _ _ _ Q).
  - assert (Q : w_cfg (fst (change_node_page k p w)) = w_cfg w).
    { unfold change_node_page. destruct (negb _); [reflexivity|]. destruct (negb _); [reflexivity|]. destruct (mget _ _) as [nd|]; [|reflexivity]. destruct (negb _); [reflexivity|]. destruct (key_eqb _ _); [reflexivity|]. cbv zeta. destruct (mget (n_page nd) _); reflexivity. }
    destruct (change_node_page k p w) as (v, [u| |]); apply (f_equal fst) in E; cbn [fst] in E, Q; subst v; now rewrite Q.
  - destruct (edit_header (c_hdr (w_cfg w)) h); apply (f_equal fst) in E; cbn [fst] in E; subst w'; reflexivity.
  - apply (f_equal fst) in E. cbn [fst] in E. subst w'. reflexivity.
  - now destruct (NS s e).
Qed.

(* ---- the extents of the Writer are the values of the objects in its slots ---- *)
Record linked (s : xstate) : Prop := {
  ln_items : held_extents (x_w s) = map (look (x_heap s)) (x_slots s);
  ln_valid : Forall (fun a => (a < length (x_heap s))%nat) (x_slots s) }.
Lemma look_seq h : map (look h) (seq 0 (length h)) = h.
Proof.
  apply (nth_ext _ _ default_extent default_extent); [now rewrite map_length, seq_length|]. intros i I. rewrite map_length, seq_length in I. rewrite nth_indep with (d' := look h 0) by now rewrite map_length, seq_length. rewrite map_nth, seq_nth by assumption. reflexivity.
Qed.
Lemma start_linked w : linked (start w).
Proof. split; cbn [start x_w x_heap x_slots]; [symmetry; apply look_seq|]. apply Forall_forall. intros a A. apply in_seq in A. lia. Qed.
Lemma show_linked h l w : Forall (fun a => (a < length h)%nat) l -> linked (show h l w).
Proof. intros F. split; [reflexivity|exact F]. Qed.
(* what a step does, seen from outside *)
Inductive effect (cd : codec) (op : xop) (s s' : xstate) (o : outcome (option node)) : Prop :=
| EOther c w : other op = [c] -> (forall i e, c <> WSetExtent i e) -> wstep cd c (x_w s) = (w, o) -> s' = mkX w (x_heap s) (x_slots s) -> effect cd op s s' o
| ENone : other op = [] -> s' = s -> o <> Ok None -> effect cd op s s' o
| ECreate e : other op = [] -> (match op with XNew _ _ _ _ | XList _ => True | _ => False end) -> s' = mkX (x_w s) (x_heap s ++ [e]) (x_slots s) -> o = Ok None -> effect cd op s s' o
| EChange a e h : other op = [] -> (op = XChange a e \/ exists i, op = XCall (WSetExtent i e) /\ nth_error (x_slots s) i = Some a) -> set_nth a e (x_heap s) = Ok h -> s' = show h (x_slots s) (x_w s) -> o = Ok None -> effect cd op s s' o
| EPut l : other op = [] -> ((exists d a i, op = XPut d a /\ setter_slot (xs_fmt (c_exts (w_cfg (x_w s)))) d = Ok i /\ set_nth i a (x_slots s) = Ok l) \/ exists m, op = XPutExtra m /\ put_extra (xs_fmt (c_exts (w_cfg (x_w s)))) m (x_slots s) = Ok l) ->
    Forall (fun a => (a < length (x_heap s))%nat) l -> s' = show (x_heap s) l (x_w s) -> o = Ok None -> effect cd op s s' o
| EWhole f x l : op = XWhole f x l -> Forall (fun a => (a < length (x_heap s))%nat) l -> s' = show (x_heap s) l (as_shape f x (x_w s)) -> o = Ok None -> effect cd op s s' o.
Lemma change_effect cd op a e s s' o : other op = [] -> (op = XChange a e \/ exists i, op = XCall (WSetExtent i e) /\ nth_error (x_slots s) i = Some a) -> change a e s = (s', o) -> effect cd op s s' o.
Proof.
  intros O C E. unfold change in E. destruct (set_nth a e (x_heap s)) as [h| |] eqn:S; apply pair_equal_spec in E as (<- & <-); [eapply EChange; eauto|apply ENone; [exact O|reflexivity|discriminate]..].
Qed.
Lemma create_effect cd op x s s' o : other op = [] -> (match op with XNew _ _ _ _ | XList _ => True | _ => False end) -> create x s = (s', o) -> effect cd op s s' o.
Proof. intros O C E. unfold create in E. destruct x as [e| |]; apply pair_equal_spec in E as (<- & <-); [eapply ECreate; eauto|apply ENone; [exact O|reflexivity|discriminate]..]. Qed.
Lemma point_effect cd op x s s' o : other op = [] -> (forall l, x = Ok l -> (exists d a i, op = XPut d a /\ setter_slot (xs_fmt (c_exts (w_cfg (x_w s)))) d = Ok i /\ set_nth i a (x_slots s) = Ok l) \/ exists m, op = XPutExtra m /\ put_extra (xs_fmt (c_exts (w_cfg (x_w s)))) m (x_slots s) = Ok l) -> point_to x s = (s', o) -> effect cd op s s' o.
Proof.
  intros O C E. unfold point_to in E. destruct x as [l| |]; [|apply pair_equal_spec in E as (<- & <-); apply ENone; [exact O|reflexivity|discriminate]..].
  destruct (forallb (fun a => (a <? length (x_heap s))%nat) l) eqn:F; apply pair_equal_spec in E as (<- & <-); [|apply ENone; [exact O|reflexivity|discriminate]].
  eapply EPut; eauto. apply Forall_forall. intros a A. rewrite forallb_forall in F. apply F in A. now apply Nat.ltb_lt.
Qed.
Lemma step_effect cd op s s' o : xstep cd op s = (s', o) -> effect cd op s s' o.
Proof.
  intros E. destruct op as [op|mn mx mean var|l|a e|d a|l|f x l]; cbn [xstep] in E; cbv zeta in E.
  - destruct op as [k data p|k hp pts p|k data n p|k p|h|i|i e].
    7: { destruct (nth_error (x_slots s) i) as [a|] eqn:N; [|apply pair_equal_spec in E as (<- & <-); apply ENone; [reflexivity|reflexivity|discriminate]]. eapply change_effect; eauto. }
    all: match type of E with (let '(_, _) := wstep ?g ?c ?w in _) = _ => destruct (wstep g c w) as (w', o') eqn:W; apply pair_equal_spec in E as (<- & <-); apply (EOther _ _ _ _ _ c w'); [reflexivity|intros ? ?; discriminate|exact W|reflexivity] end.
  - eapply create_effect; eauto; try reflexivity; exact Logic.I.
  - eapply create_effect; eauto; try reflexivity; exact Logic.I.
  - eapply change_effect; eauto.
  - eapply point_effect; [reflexivity| |exact E]. intros l B. apply bind_ok in B as (i & B1 & B2). left. exists d, a, i. auto.
  - eapply point_effect; [reflexivity| |exact E]. intros l' B. right. exists l. auto.
  - unfold assign_extents in E. destruct (forallb (fun a => (a <? length (x_heap s))%nat) l) eqn:F; apply pair_equal_spec in E as (<- & <-); [|apply ENone; [reflexivity|reflexivity|discriminate]].
    eapply EWhole; eauto. apply Forall_forall. intros a A. rewrite forallb_forall in F. apply F in A. now apply Nat.ltb_lt.
Qed.
Lemma as_same w : as_shape (xs_fmt (c_exts (w_cfg w))) (xs_ext (c_exts (w_cfg w))) w = w.
Proof. destruct w as [b [h wk ebs i [f x l]] ld pg]. reflexivity. Qed.
Lemma set_nth_length {A} (v : A) : forall n l l', set_nth n v l = Ok l' -> length l' = length l.
Proof. induction n as [|n IH]; intros [|a l] l' E; cbn [set_nth] in E; try discriminate E; [assert (l' = v :: l) as -> by congruence; reflexivity|]. apply bind_ok in E as (r & E & F). assert (l' = a :: r) as -> by congruence. cbn [length]. now rewrite (IH _ _ E). Qed.
Lemma set_nth_at {A} (v : A) : forall n l l', set_nth n v l = Ok l' -> forall i, nth_error l' i = if Nat.eqb i n then Some v else nth_error l i.
Proof.
  intros n l l' E. assert (N : (n < length l)%nat).
  { revert l l' E. induction n as [|n IH]; intros [|a l] l' E; cbn [set_nth] in E; try discriminate E; cbn [length]; [lia|]. apply bind_ok in E as (r & E & F). specialize (IH _ _ E). lia. }
  destruct (set_nth_ok v n l N) as (l2 & E2 & _ & H). assert (l' = l2) as -> by congruence. exact H.
Qed.
Lemma copy_range_keeps {A} (src : list A) : forall n s d dst dst', copy_range n s d src dst = Ok dst' -> length dst' = length dst /\ forall i, (i < d)%nat -> nth_error dst' i = nth_error dst i.
Proof.
  induction n as [|n IH]; intros s d dst dst' E; cbn [copy_range] in E; [assert (dst' = dst) as -> by congruence; auto|]. apply bind_ok in E as (v & _ & E). apply bind_ok in E as (d1 & E1 & E). destruct (IH _ _ _ _ E) as (L & K).
  split; [rewrite L; eapply set_nth_length; eauto|]. intros i I. rewrite K by lia. rewrite (set_nth_at _ _ _ _ E1). destruct (Nat.eqb_spec i d); [lia|reflexivity].
Qed.
Lemma put_extra_keeps fmt m l l' : put_extra fmt m l = Ok l' -> length l' = length l /\ forall d i, setter_slot fmt d = Ok i -> nth_error l' i = nth_error l i.
Proof.
  unfold put_extra. intros E. apply bind_ok in E as (b & B & E). destruct (negb _); [discriminate E|]. destruct (copy_range_keeps _ _ _ _ _ _ E) as (L & K). split; [exact L|]. intros d i S. apply K.
  unfold num_extents in B. apply bind_ok in B as (c & B & C). unfold base_dims in B. change (to_u 16 0) with 0 in C. assert (b = c + 0) as -> by congruence. clear C K L E.
  destruct (Z.eqb_spec fmt 6) as [->|]; [assert (c = 14) by congruence; subst c; destruct d; cbn in S; try discriminate S; assert (X : forall n, Ok n = Ok i -> n = i) by congruence; apply X in S; subst i; cbn; lia|].
  destruct (Z.eqb_spec fmt 7) as [->|]; [assert (c = 17) by congruence; subst c; destruct d; cbn in S; try discriminate S; assert (X : forall n, Ok n = Ok i -> n = i) by congruence; apply X in S; subst i; cbn; lia|].
  destruct (Z.eqb_spec fmt 8) as [->|]; [assert (c = 18) by congruence; subst c; destruct d; cbn in S; try discriminate S; assert (X : forall n, Ok n = Ok i -> n = i) by congruence; apply X in S; subst i; cbn; lia|discriminate B].
Qed.
Lemma put_length fmt (s l : list nat) op : (exists d a i, op = XPut d a /\ setter_slot fmt d = Ok i /\ set_nth i a s = Ok l) \/ (exists m, op = XPutExtra m /\ put_extra fmt m s = Ok l) -> length l = length s.
Proof. intros [(d & a & i & _ & _ & S)|(m & _ & P)]; [eapply set_nth_length; eauto|exact (proj1 (put_extra_keeps _ _ _ _ P))]. Qed.
(* linked states, and the Writer that the other calls alone make *)
Lemma step_shaped cd op s s' o v : same_shape (x_w s) op -> linked s -> x_w s = with_items (held_extents (x_w s)) v -> length (held_extents v) = length (x_slots s) -> xstep cd op s = (s', o) ->
  linked s' /\ length (x_slots s') = length (x_slots s) /\ xs_fmt (c_exts (w_cfg (x_w s'))) = xs_fmt (c_exts (w_cfg (x_w s))) /\ xs_ext (c_exts (w_cfg (x_w s'))) = xs_ext (c_exts (w_cfg (x_w s))) /\ (length (x_heap s) <= length (x_heap s'))%nat /\
  exists v', x_w s' = with_items (held_extents (x_w s')) v' /\ length (held_extents v') = length (x_slots s') /\
    ((exists c, other op = [c] /\ wstep cd c v = (v', o)) \/ (other op = [] /\ v' = v)).
Proof.
  intros SH (LI & LV) XV HL E. destruct (step_effect cd op s s' o E) as [c w O NS W ->|O -> _|e O _ -> ->|a e h O _ S -> ->|l O P V -> ->|f x l -> V -> ->].
  - pose proof (wstep_exts cd c _ _ _ NS W) as CE. rewrite XV in W. rewrite items_step in W by exact NS. destruct (wstep cd c v) as (v', o') eqn:WV. unfold itemw in W. cbn [fst snd] in W. apply pair_equal_spec in W as (W & ->).
    pose proof (wstep_exts cd c _ _ _ NS WV) as CV. cbn [x_w x_heap x_slots]. split; [split; cbn [x_w x_heap x_slots]; [unfold held_extents in *; rewrite CE; exact LI|exact LV]|]. split; [reflexivity|]. split; [now rewrite CE|]. split; [now rewrite CE|]. split; [lia|].
    exists v'. split; [rewrite <- W; reflexivity|]. split; [unfold held_extents in *; rewrite CV; exact HL|]. left. eauto.
  - split; [split; assumption|]. repeat (split; [reflexivity || lia|]). exists v. auto.
  - cbn [x_w x_heap x_slots]. split; [split; cbn [x_w x_heap x_slots]|].
    + rewrite LI. apply map_ext_in. intros a A. rewrite Forall_forall in LV. unfold look. rewrite app_nth1 by now apply LV. reflexivity.
    + eapply Forall_impl; [|exact LV]. intros a A. cbv beta in *. rewrite app_length. lia.
    + repeat (split; [reflexivity || (rewrite ?app_length; lia)|]). exists v. auto.
  - pose proof (set_nth_length _ _ _ _ S) as HS. split; [apply show_linked; now rewrite HS|]. cbn [show x_w x_heap x_slots]. split; [reflexivity|]. split; [reflexivity|]. split; [reflexivity|]. split; [lia|]. exists v. rewrite XV, items_twice. auto.
  - pose proof (put_length _ _ _ _ P) as PL. split; [now apply show_linked|]. cbn [show x_w x_heap x_slots]. split; [exact PL|]. split; [reflexivity|]. split; [reflexivity|]. split; [lia|]. exists v. rewrite XV, items_twice, PL. auto.
  - cbn [same_shape] in SH. destruct SH as (-> & -> & LL). rewrite as_same. assert (PL : length l = length (x_slots s)) by (rewrite LL, LI, map_length; reflexivity).
    split; [now apply show_linked|]. cbn [show x_w x_heap x_slots]. split; [exact PL|]. split; [reflexivity|]. split; [reflexivity|]. split; [lia|]. exists v. rewrite XV, items_twice, PL. auto.
Qed.
Lemma step_linked cd op s s' o : linked s -> xstep cd op s = (s', o) -> linked s' /\ ((forall f x l, op <> XWhole f x l) -> xs_fmt (c_exts (w_cfg (x_w s'))) = xs_fmt (c_exts (w_cfg (x_w s)))).
Proof.
  intros L E. assert (C : (exists f x l, op = XWhole f x l) \/ forall f x l, op <> XWhole f x l) by (destruct op; try (right; intros; discriminate); left; eauto). destruct C as [(f & x & l & ->)|C].
  - split; [|intros C; now destruct (C f x l)]. destruct (step_effect cd _ s s' o E) as [c w O _ _ _|_ -> _|e _ [] _ _|a e h _ [Q|(i & Q & _)] _ _ _|m _ [(d & a & i & Q & _)|(k & Q & _)] _ _ _|f' x' m Q V -> _]; try discriminate; [exact L|now apply show_linked].
  - destruct (step_shaped cd op s s' o (x_w s)) as (L' & _ & FM & _); auto; [destruct op; try exact Logic.I; now destruct (C fmt ext l)|now rewrite items_same|destruct L as (LI & _); now rewrite LI, map_length].
Qed.

Lemma run_linked cd w0 : forall ops s s' lg v, Forall (same_shape w0) ops -> xs_fmt (c_exts (w_cfg (x_w s))) = xs_fmt (c_exts (w_cfg w0)) -> xs_ext (c_exts (w_cfg (x_w s))) = xs_ext (c_exts (w_cfg w0)) -> length (x_slots s) = length (held_extents w0) ->
  linked s -> x_w s = with_items (held_extents (x_w s)) v -> length (held_extents v) = length (x_slots s) -> xrun cd ops s = (s', lg) -> Forall (fun x => snd x <> UB) lg ->
  linked s' /\ length (x_slots s') = length (x_slots s) /\ map fst lg = ops /\ exists v', x_w s' = with_items (held_extents (x_w s')) v' /\ length (held_extents v') = length (x_slots s') /\ wrun cd (others ops) v = (v', others_log lg).
Proof.
  induction ops as [|op ops IH]; intros s s' lg v SH FW XW SW L XV HL R D; cbn [xrun] in R.
  - apply pair_equal_spec in R as (<- & <-). split; [exact L|]. split; [reflexivity|]. split; [reflexivity|]. exists v. auto.
  - assert (SO : same_shape (x_w s) op). { apply Forall_inv in SH. destruct op; try exact Logic.I. cbn [same_shape] in *. rewrite FW, XW. destruct L as (LI & _). rewrite LI, map_length, SW. exact SH. }
    destruct (xstep cd op s) as (s1, o) eqn:E. destruct (step_shaped cd op s s1 o v SO L XV HL E) as (L1 & SL & FM & XM & _ & v1 & X1 & H1 & C).
    assert (NU : o <> UB) by (intros ->; apply pair_equal_spec in R as (_ & <-); apply Forall_inv in D; now apply D).
    destruct (xrun cd ops s1) as (s2, lg2) eqn:R2. assert (RE : s2 = s' /\ lg = (op, o) :: lg2) by (destruct o; [..|contradiction]; cbv beta iota in R; apply pair_equal_spec in R as (<- & <-); auto).
    destruct RE as (-> & ->). apply Forall_inv_tail in D. destruct (IH s1 s' lg2 v1 (Forall_inv_tail SH) ltac:(congruence) ltac:(congruence) ltac:(congruence) L1 X1 H1 R2 D) as (L2 & S2 & M & v' & X2 & H2 & W). split; [exact L2|]. split; [congruence|]. split; [cbn [map fst]; now rewrite M|]. exists v'. split; [exact X2|]. split; [exact H2|].
    unfold others, others_log. cbn [flat_map fst snd]. fold (others ops). fold (others_log lg2). destruct C as [(c & -> & WS)|(-> & ->)]; [|exact W]. cbn [app map wrun]. rewrite WS, W. destruct o; [reflexivity|reflexivity|contradiction].
Qed.
Lemma set_all_run cd : forall l done rest v, held_extents v = done ++ rest -> length rest = length l ->
  wrun cd (map (fun x => WSetExtent (fst x) (snd x)) (combine (seq (length done) (length l)) l)) v = (with_items (done ++ l) v, map (fun op => (op, Ok None)) (map (fun x => WSetExtent (fst x) (snd x)) (combine (seq (length done) (length l)) l))).
Proof.
  induction l as [|e l IH]; intros done rest v H L; cbn [length seq combine map wrun].
  - destruct rest; [|discriminate L]. rewrite <- H, items_same. reflexivity.
  - destruct rest as [|x rest]; [discriminate L|]. cbn [fst snd wstep]. cbv zeta. unfold held_extents in H. rewrite H.
    assert (S : set_nth (length done) e (done ++ x :: rest) = Ok (done ++ e :: rest)) by (clear; induction done as [|y d IH]; [reflexivity|]; cbn [length app set_nth]; now rewrite IH).
    rewrite S. change (with_cfg _ v) with (with_items (done ++ e :: rest) v). assert (LD : Datatypes.S (length done) = length (done ++ [e])) by (rewrite app_length; cbn [length]; lia). rewrite LD.
    rewrite (IH (done ++ [e]) rest); [|cbn [held_extents with_items with_cfg w_cfg c_exts xs_items]; unfold held_extents; cbn [with_items with_cfg w_cfg c_exts xs_items]; now rewrite <- app_assoc|cbn [length] in L; lia].
    rewrite items_twice, <- app_assoc. reflexivity.
Qed.

(* ---- C96 ---- *)
(* the Writer that a program leaves is the one that the other calls make when every extent is then set to the value that its object
   has at the end; these calls return the same.  So Close does the same and the file is the same. *)
Theorem C96_same_writer : forall cd cap c v w0 ops s lg, open_writer cap c v = Ok w0 -> Forall (same_shape w0) ops -> xrun cd ops (start w0) = (s, lg) -> Forall (fun x => snd x <> UB) lg ->
  held_extents (x_w s) = map (look (x_heap s)) (x_slots s) /\
  wrun cd (others ops ++ set_all (held_extents (x_w s))) w0 = (x_w s, others_log lg ++ map (fun op => (op, Ok None)) (set_all (held_extents (x_w s)))).
Proof.
  intros cd cap c v w0 ops s lg _ SH R D. assert (X : x_w (start w0) = with_items (held_extents (x_w (start w0))) w0) by (cbn [start x_w]; now rewrite items_same).
  destruct (run_linked cd w0 ops (start w0) s lg w0 SH eq_refl eq_refl ltac:(cbn [start x_slots]; now rewrite seq_length) (start_linked w0) X ltac:(cbn [start x_slots]; now rewrite seq_length) R D) as ((LI & LV) & SL & _ & v' & XV & HL & W). split; [exact LI|].
  assert (DO : Forall (fun x => snd x <> UB) (others_log lg)). { apply Forall_forall. intros x I. unfold others_log in I. apply in_flat_map in I as (y & Y & I). apply in_map_iff in I as (op & <- & _). rewrite Forall_forall in D. exact (D y Y). }
  rewrite (wrun_app cd _ _ _ _ _ W DO). unfold set_all. pose proof (set_all_run cd (held_extents (x_w s)) [] (held_extents v') v' eq_refl) as SA. cbn [length app] in SA. rewrite SA by (rewrite HL, LI, map_length; reflexivity). rewrite <- XV. reflexivity.
Qed.
Print Assumptions C96_same_writer.
Theorem C96_file : forall cd od c v c0 w0 ops s lg w, open_writer None c v = Ok w0 -> init_writer c v = Ok c0 -> ready c0 -> Forall wf_op (others ops) -> Forall (same_shape w0) ops -> reorders od -> xrun cd ops (start w0) = (s, lg) -> Forall (fun x => snd x <> UB) lg ->
  close cd od (x_w s) = (w, Ok tt) -> Z.of_nat (length (file w)) < 2 ^ 64 -> exists lg', complete_session cd od c v c0 (others ops ++ set_all (held_extents (x_w s))) (others_log lg ++ lg') w.
Proof.
  intros cd od c v c0 w0 ops s lg w O I RD WF SH RE R D C L. destruct (C96_same_writer cd None c v w0 ops s lg O SH R D) as (_ & W). eexists. split; [exists w0, (x_w s); split; [exact O|split; [exact W|exact C]]|]. split; [exact I|]. split; [exact RD|]. split; [|split; [exact RE|split; [|exact L]]].
  - apply Forall_app. split; [exact WF|]. apply Forall_forall. intros op P. apply in_map_iff in P as (x & <- & _). exact Logic.I.
  - apply Forall_app. split; apply Forall_forall; intros x P.
    + unfold others_log in P. apply in_flat_map in P as (y & Y & P). apply in_map_iff in P as (op & <- & _). rewrite Forall_forall in D. exact (D y Y).
    + apply in_map_iff in P as (op & <- & _). discriminate.
Qed.
Print Assumptions C96_file.

(* ---- an object in a slot ---- *)
Definition can_put (fmt : Z) (d : dim) : Prop := setter_slot fmt d = Ok (spec_slot d).
Lemma setter_is fmt d i : setter_slot fmt d = Ok i -> i = spec_slot d /\ can_put fmt d.
Proof.
  assert (X : forall a : nat, Ok a = Ok i -> i = a) by (intros; congruence). unfold can_put.
  destruct d; cbn [setter_slot spec_slot]; intros H; try (split; [exact (X _ H)|reflexivity]).
  1-3: destruct (6 <? fmt) eqn:F; [split; [exact (X _ H)|reflexivity]|discriminate H].
  destruct (fmt =? 8) eqn:F; [split; [exact (X _ H)|reflexivity]|discriminate H].
Qed.
Lemma put_get d x : can_put (xs_fmt x) d -> dim_get d x = get_nth (spec_slot d) (xs_items x).
Proof.
  unfold can_put. destruct d; cbn [setter_slot spec_slot dim_get]; intros H; try reflexivity.
  1-3: destruct (6 <? xs_fmt x); [reflexivity|discriminate H]. destruct (xs_fmt x =? 8); [reflexivity|discriminate H].
Qed.
Lemma own s : x_w s = with_items (held_extents (x_w s)) (x_w s).
Proof. now rewrite items_same. Qed.
Lemma linked_length s : linked s -> length (held_extents (x_w s)) = length (x_slots s).
Proof. intros (LI & _). now rewrite LI, map_length. Qed.
Lemma step_keeps_slot cd op s s' o d a : linked s -> can_put (xs_fmt (c_exts (w_cfg (x_w s)))) d -> nth_error (x_slots s) (spec_slot d) = Some a -> leaves_dim d op -> xstep cd op s = (s', o) -> nth_error (x_slots s') (spec_slot d) = Some a.
Proof.
  intros L HD N LD E. destruct (step_effect cd op s s' o E) as [c w _ _ _ ->|_ -> _|e _ _ -> _|b e h _ _ _ -> _|l _ P _ -> _|f x l -> _ _ _]; [exact N..| |destruct LD]. cbn [show x_slots].
  destruct P as [(d' & b & i & -> & S & SN)|(m & -> & P)].
  - cbn [leaves_dim] in LD. apply setter_is in S as (-> & _). rewrite (set_nth_at _ _ _ _ SN). destruct (Nat.eqb_spec (spec_slot d) (spec_slot d')) as [Q|Q]; [apply slot_inj in Q; now destruct LD|exact N].
  - destruct (put_extra_keeps _ _ _ _ P) as (_ & K). rewrite (K d); [exact N|exact HD].
Qed.
Lemma run_cons cd op ops s s' lg : xrun cd (op :: ops) s = (s', lg) -> Forall (fun x => snd x <> UB) lg -> exists s1 o lg2, xstep cd op s = (s1, o) /\ o <> UB /\ xrun cd ops s1 = (s', lg2) /\ lg = (op, o) :: lg2 /\ Forall (fun x => snd x <> UB) lg2.
Proof.
  intros R D. cbn [xrun] in R. destruct (xstep cd op s) as (s1, o). assert (NU : o <> UB) by (intros ->; apply pair_equal_spec in R as (_ & <-); apply Forall_inv in D; now apply D).
  destruct (xrun cd ops s1) as (s2, lg2) eqn:R2. assert (RE : s2 = s' /\ lg = (op, o) :: lg2) by (destruct o; [..|contradiction]; cbv beta iota in R; apply pair_equal_spec in R as (<- & <-); auto).
  destruct RE as (-> & ->). exists s1, o, lg2. apply Forall_inv_tail in D. auto.
Qed.
Lemma run_keeps_slot cd d a : forall ops s s' lg, linked s -> can_put (xs_fmt (c_exts (w_cfg (x_w s)))) d -> nth_error (x_slots s) (spec_slot d) = Some a -> Forall (leaves_dim d) ops -> xrun cd ops s = (s', lg) -> Forall (fun x => snd x <> UB) lg ->
  linked s' /\ can_put (xs_fmt (c_exts (w_cfg (x_w s')))) d /\ nth_error (x_slots s') (spec_slot d) = Some a.
Proof.
  induction ops as [|op ops IH]; intros s s' lg L HD N LV R D; [cbn [xrun] in R; apply pair_equal_spec in R as (<- & _); auto|].
  destruct (run_cons _ _ _ _ _ _ R D) as (s1 & o & lg2 & E & _ & R2 & _ & D2). destruct (step_linked cd op s s1 o L E) as (L1 & FM).
  apply (IH s1 s' lg2 L1); [rewrite FM; [exact HD|intros f x l ->; exact (Forall_inv LV)]| |exact (Forall_inv_tail LV)|exact R2|exact D2]. exact (step_keeps_slot cd op s s1 o d a L HD N (Forall_inv LV) E).
Qed.
Lemma run_stays_linked cd : forall ops s s' lg, linked s -> xrun cd ops s = (s', lg) -> Forall (fun x => snd x <> UB) lg -> linked s'.
Proof.
  induction ops as [|op ops IH]; intros s s' lg L R D; [cbn [xrun] in R; apply pair_equal_spec in R as (<- & _); exact L|].
  destruct (run_cons _ _ _ _ _ _ R D) as (s1 & o & lg2 & E & _ & R2 & _ & D2). apply (IH s1 s' lg2); [|exact R2|exact D2]. exact (proj1 (step_linked cd op s s1 o L E)).
Qed.
Lemma reached_linked cd s : reached cd s -> linked s.
Proof. intros (cap & c & v & w0 & ops & lg & _ & R & D). exact (run_stays_linked cd ops _ s lg (start_linked w0) R D). Qed.
Lemma linked_shows s d a : linked s -> can_put (xs_fmt (c_exts (w_cfg (x_w s)))) d -> nth_error (x_slots s) (spec_slot d) = Some a -> exists e, has_value s a e /\ held_at (x_w s) d e.
Proof.
  intros (LI & LV) HD N. assert (A : (a < length (x_heap s))%nat) by (rewrite Forall_forall in LV; apply LV; eapply nth_error_In; eauto). exists (look (x_heap s) a). split; [now apply nth_error_nth'|].
  unfold held_at. rewrite put_get by exact HD. unfold get_nth. unfold held_extents in LI. rewrite LI, nth_error_map, N. reflexivity.
Qed.
(* an object that was given to the Writer for a dimension: from then on the Writer has the object's current value there, whatever
   the program does, until another object is given for that dimension *)
Theorem C96_put_shows : forall cd d a s1 s2 ops s lg, reached cd s1 -> xstep cd (XPut d a) s1 = (s2, Ok None) -> xrun cd ops s2 = (s, lg) -> Forall (fun x => snd x <> UB) lg -> Forall (leaves_dim d) ops ->
  exists e, has_value s a e /\ held_at (x_w s) d e.
Proof.
  intros cd d a s1 s2 ops s lg RE E R D LV. pose proof (reached_linked _ _ RE) as L1. destruct (step_linked cd _ s1 s2 _ L1 E) as (L2 & FM). specialize (FM ltac:(intros; discriminate)).
  assert (P : can_put (xs_fmt (c_exts (w_cfg (x_w s1)))) d /\ nth_error (x_slots s2) (spec_slot d) = Some a).
  { cbn [xstep] in E. cbv zeta in E. unfold point_to in E. destruct (let! i := _ in _) as [l| |] eqn:B; [|apply (f_equal snd) in E; discriminate E..]. apply bind_ok in B as (i & B1 & B2). apply setter_is in B1 as (-> & HD).
    split; [exact HD|]. destruct (forallb _ l); [|apply (f_equal snd) in E; discriminate E]. apply (f_equal fst) in E. cbn [fst] in E. subst s2. cbn [show x_slots]. rewrite (set_nth_at _ _ _ _ B2), Nat.eqb_refl. reflexivity. }
  destruct P as (HD & N). rewrite <- FM in HD. destruct (run_keeps_slot cd d a ops s2 s lg L2 HD N LV R D) as (L & HD' & N'). now apply linked_shows.
Qed.
Print Assumptions C96_put_shows.
(* an object keeps its value until the program changes it *)
Theorem C96_value_stays : forall cd a e ops s1 s lg, has_value s1 a e -> xrun cd ops s1 = (s, lg) -> Forall (fun x => snd x <> UB) lg -> Forall (leaves_object a) ops -> has_value s a e.
Proof.
  intros cd a e ops. induction ops as [|op ops IH]; intros s1 s lg H R D LV; [cbn [xrun] in R; apply pair_equal_spec in R as (<- & _); exact H|].
  destruct (run_cons _ _ _ _ _ _ R D) as (s2 & o & lg2 & E & _ & R2 & _ & D2). apply (IH s2 s lg2); [|exact R2|exact D2|exact (Forall_inv_tail LV)].
  destruct (step_effect cd op s1 s2 o E) as [c w _ _ _ ->|_ -> _|e' _ _ -> _|b e' h _ C S -> _|l _ P _ -> _|f x l _ _ -> _]; unfold has_value in *; cbn [show x_heap]; [exact H..| | |exact H|exact H].
  - rewrite nth_error_app1; [exact H|]. apply nth_error_Some. rewrite H. discriminate.
  - rewrite (set_nth_at _ _ _ _ S). destruct (Nat.eqb_spec a b) as [Q|Q]; [|exact H]. apply Forall_inv in LV. destruct C as [->|(i & -> & _)]; cbn [leaves_object] in LV; [now destruct LV|contradiction].
Qed.
Print Assumptions C96_value_stays.
(* in particular: changing the object later changes the Writer's extent, in every dimension that the object was given for *)
Theorem C96_later_change : forall cd d a e s1 s2 ops1 s3 lg1 s4 ops2 s lg2, reached cd s1 -> xstep cd (XPut d a) s1 = (s2, Ok None) -> xrun cd ops1 s2 = (s3, lg1) -> Forall (fun x => snd x <> UB) lg1 -> Forall (leaves_dim d) ops1 ->
  xstep cd (XChange a e) s3 = (s4, Ok None) -> xrun cd ops2 s4 = (s, lg2) -> Forall (fun x => snd x <> UB) lg2 -> Forall (leaves_dim d) ops2 -> Forall (leaves_object a) ops2 -> held_at (x_w s) d e.
Proof.
  intros cd d a e s1 s2 ops1 s3 lg1 s4 ops2 s lg2 RE E R1 D1 LV1 C R2 D2 LV2 LO.
  assert (V : has_value s4 a e).
  { cbn [xstep] in C. cbv zeta in C. unfold change in C. destruct (set_nth a e (x_heap s3)) as [h| |] eqn:S; [|apply (f_equal snd) in C; discriminate C..]. apply (f_equal fst) in C. cbn [fst] in C. subst s4. unfold has_value. cbn [show x_heap]. rewrite (set_nth_at _ _ _ _ S), Nat.eqb_refl. reflexivity. }
  assert (R : forall ops s x l y m, xrun cd ops s = (x, l) -> Forall (fun x => snd x <> UB) l -> xrun cd ops2 s4 = (y, m) -> xstep cd (XChange a e) x = (s4, Ok None) -> xrun cd (ops ++ XChange a e :: ops2) s = (y, l ++ (XChange a e, Ok None) :: m)).
  { clear. induction ops as [|op ops IH]; intros s x l y m R D R2 C; [cbn [xrun] in R; apply pair_equal_spec in R as (-> & <-); cbn [app xrun]; rewrite C, R2; reflexivity|].
    destruct (run_cons _ _ _ _ _ _ R D) as (s1 & o & lg2 & E & NU & R3 & -> & D3). specialize (IH s1 x lg2 y m R3 D3 R2 C). cbn [app xrun]. rewrite E, IH. destruct o; [reflexivity|reflexivity|contradiction]. }
  specialize (R ops1 s2 s3 lg1 s lg2 R1 D1 R2 C). pose proof (C96_value_stays cd a e ops2 s4 s lg2 V R2 D2 LO) as VS.
  destruct (C96_put_shows cd d a s1 s2 _ s _ RE E R) as (e' & V' & H).
  - apply Forall_app. split; [exact D1|]. constructor; [discriminate|exact D2].
  - apply Forall_app. split; [exact LV1|]. constructor; [exact Logic.I|exact LV2].
  - unfold has_value in *. assert (e' = e) as -> by congruence. exact H.
Qed.
Print Assumptions C96_later_change.

(* ---- C97 ---- *)
(* assigning whole extents of the Writer's shape: what setting every extent to the value of its object does *)
Theorem C97_as_members : forall cd x l vs s1 s2 f, reached cd s1 -> same_shape (x_w s1) (XWhole f x l) -> xstep cd (XWhole f x l) s1 = (s2, Ok None) -> Forall2 (has_value s1) l vs ->
  wrun cd (set_all vs) (x_w s1) = (x_w s2, map (fun op => (op, Ok None)) (set_all vs)) /\ held_extents (x_w s2) = vs.
Proof.
  intros cd x l vs s1 s2 f RE (-> & -> & LL) E V. cbn [xstep] in E. unfold assign_extents in E. destruct (forallb _ l); [|apply (f_equal snd) in E; discriminate E]. apply (f_equal fst) in E. cbn [fst] in E. subst s2. rewrite as_same. cbn [show x_w].
  assert (M : map (look (x_heap s1)) l = vs) by (clear - V; induction V as [|a v l vs H V IH]; [reflexivity|]; cbn [map]; rewrite IH; f_equal; unfold look; now apply nth_error_nth).
  rewrite M. split; [|reflexivity]. unfold set_all. pose proof (set_all_run cd vs [] (held_extents (x_w s1)) (x_w s1) eq_refl) as SA. cbn [length app] in SA. apply SA. rewrite <- LL, <- M, map_length. reflexivity.
Qed.
Print Assumptions C97_as_members.
(* the assigned extents go on sharing their objects: from then on the Writer has, for every dimension, the current value of the object
   in that place, until another object is given for it *)
Theorem C97_shares : forall cd f x l d a s1 s2 ops s lg, reached cd s1 -> xstep cd (XWhole f x l) s1 = (s2, Ok None) -> has_dim f d -> nth_error l (spec_slot d) = Some a -> xrun cd ops s2 = (s, lg) -> Forall (fun x => snd x <> UB) lg -> Forall (leaves_dim d) ops ->
  exists e, has_value s a e /\ held_at (x_w s) d e.
Proof.
  intros cd f x l d a s1 s2 ops s lg RE E HD N R D LV. pose proof (reached_linked _ _ RE) as L1. destruct (step_linked cd _ s1 s2 _ L1 E) as (L2 & _). cbn [xstep] in E. unfold assign_extents in E. destruct (forallb _ l); [|apply (f_equal snd) in E; discriminate E]. apply (f_equal fst) in E. cbn [fst] in E. subst s2.
  assert (CP : can_put f d). { unfold can_put. destruct d; cbn [setter_slot spec_slot has_dim] in *; try reflexivity. 1-3: destruct HD as [->| ->]; reflexivity. now subst f. }
  destruct (run_keeps_slot cd d a ops _ s lg L2 CP N LV R D) as (L & HD' & N'). now apply linked_shows.
Qed.
Print Assumptions C97_shares.

(* ---- concrete programs ---- *)
Definition new_value : extent := mkExt f1 f1 f0 f0.
Definition put_calls : list xop := [XNew f0 f1 f0 f1; XPut DX 18; XPut DY 18; XCall (WAddPoints k0 [point_at f1; point_at (f64_of_Z 4)] (mkPoints 7 48 [1; 0; 1]%nat) k0); XChange 18 new_value; XWhole 7 true ([18; 18] ++ seq 2 16)%nat].
Definition put_test (c : config) (ops : list xop) (t : writer -> xstate -> bool) : bool :=
  match open_writer None c no_overrides with
  | Ok w0 => let '(s, l) := xrun verbatim ops (start w0) in
      match close verbatim plain (x_w s) with
      | (w, Ok _) => forallb (fun x => match snd x with Ok _ => true | _ => false end) l && (Z.of_nat (length (file w)) <? 2 ^ 64) && t w0 s
      | _ => false end
  | _ => false end.
Lemma put_test_ok c ops t : put_test c ops t = true -> exists w0 s lg w, open_writer None c no_overrides = Ok w0 /\ xrun verbatim ops (start w0) = (s, lg) /\ Forall (fun x => snd x <> UB) lg /\ close verbatim plain (x_w s) = (w, Ok tt) /\ Z.of_nat (length (file w)) < 2 ^ 64 /\ t w0 s = true.
Proof.
  unfold put_test. destruct (open_writer None c no_overrides) as [w0| |]; intros H; [|discriminate H..]. destruct (xrun verbatim ops (start w0)) as (s, l) eqn:R. destruct (close verbatim plain (x_w s)) as (w, [[]| |]) eqn:C; [|discriminate H..].
  apply andb_prop in H as (H & T). apply andb_prop in H as (H1 & H2). apply Z.ltb_lt in H2. exists w0, s, l, w. split; [reflexivity|]. split; [exact R|]. split; [|auto]. apply Forall_forall. intros x X. rewrite forallb_forall in H1. apply H1 in X. destruct (snd x); [discriminate|discriminate X..].
Qed.
Lemma put_wf : Forall wf_op (others put_calls).
Proof. unfold put_calls, others. cbn [flat_map other app]. apply Forall_cons; [|apply Forall_nil]. cbn. unfold wf_op. repeat constructor; cbn; lia. Qed.
Definition shape_b (w : writer) (op : xop) : bool :=
  match op with XWhole f x l => (f =? xs_fmt (c_exts (w_cfg w))) && Bool.eqb x (xs_ext (c_exts (w_cfg w))) && Nat.eqb (length l) (length (held_extents w)) | _ => true end.
Lemma shape_b_ok w ops : forallb (shape_b w) ops = true -> Forall (same_shape w) ops.
Proof.
  intros H. apply Forall_forall. intros op I. rewrite forallb_forall in H. specialize (H op I). destruct op; try exact Logic.I. cbn [shape_b same_shape] in *. apply andb_prop in H as (H & H3). apply andb_prop in H as (H1 & H2).
  apply Z.eqb_eq in H1. apply Bool.eqb_prop in H2. apply Nat.eqb_eq in H3. auto.
Qed.
Example C96_nonvacuous : exists w0 s lg w, open_writer None round_config no_overrides = Ok w0 /\ init_writer round_config no_overrides = Ok round_config /\ ready round_config /\ Forall wf_op (others put_calls) /\ Forall (same_shape w0) put_calls /\ reorders plain /\
  xrun verbatim put_calls (start w0) = (s, lg) /\ Forall (fun x => snd x <> UB) lg /\ close verbatim plain (x_w s) = (w, Ok tt) /\ Z.of_nat (length (file w)) < 2 ^ 64 /\ length (x_slots s) = 18%nat.
Proof.
  destruct round_config_ok as (RD & I). destruct (put_test_ok round_config put_calls (fun w0 s => Nat.eqb (length (x_slots s)) 18 && forallb (shape_b w0) put_calls)) as (w0 & s & lg & w & O & R & D & C & L & T); [vm_compute; reflexivity|].
  apply andb_prop in T as (T & SH). apply Nat.eqb_eq in T. apply shape_b_ok in SH. exists w0, s, lg, w. split; [exact O|]. split; [exact I|]. split; [exact RD|]. split; [exact put_wf|]. split; [exact SH|]. split; [exact plain_reorders|]. auto 10.
Qed.

(* desired: what an extent setter is given is stored: the Writer's extent stays as it was, whatever the program does afterwards with
   the object.  False of the code: the object is shared *)
Theorem C96_shared_refuted : exists s1 s2 s3 a e e', reached verbatim s1 /\ has_value s1 a e /\ xstep verbatim (XPut DX a) s1 = (s2, Ok None) /\ held_at (x_w s2) DX e /\
  xstep verbatim (XChange a e') s2 = (s3, Ok None) /\ held_at (x_w s3) DX e' /\ e <> e'.
Proof.
  destruct round_config_ok as (RD & I). destruct (put_test_ok round_config [XNew f0 f1 f0 f1] (fun _ s => match xstep verbatim (XPut DX 18) s with (s2, Ok None) => match xstep verbatim (XChange 18 new_value) s2 with (_, Ok None) => feq (ex_min (look (x_heap s) 18)) f0 && Nat.eqb (length (x_heap s)) 19 | _ => false end | _ => false end)) as (w0 & s1 & lg & w & O & R & D & _ & _ & T); [vm_compute; reflexivity|].
  destruct (xstep verbatim (XPut DX 18) s1) as (s2, [[?|]| |]) eqn:P; [discriminate T| |discriminate T..]. destruct (xstep verbatim (XChange 18 new_value) s2) as (s3, [[?|]| |]) eqn:C; [discriminate T| |discriminate T..]. apply andb_prop in T as (T & L). apply Nat.eqb_eq in L.
  assert (RE : reached verbatim s1) by (exists None, round_config, no_overrides, w0, [XNew f0 f1 f0 f1], lg; auto).
  assert (V : has_value s1 18 (look (x_heap s1) 18)) by (apply nth_error_nth'; lia).
  exists s1, s2, s3, 18%nat, (look (x_heap s1) 18), new_value. split; [exact RE|]. split; [exact V|]. split; [exact P|]. split; [|split; [exact C|split]].
  - destruct (C96_put_shows verbatim DX 18 s1 s2 [] s2 [] RE P eq_refl (Forall_nil _) (Forall_nil _)) as (e & V' & H).
    assert (V2 : has_value s2 18 (look (x_heap s1) 18)) by (apply (C96_value_stays verbatim 18 _ [XPut DX 18] s1 s2 [(XPut DX 18, Ok None)] V); [cbn [xrun]; rewrite P; reflexivity|apply Forall_cons; [discriminate|apply Forall_nil]|apply Forall_cons; [exact Logic.I|apply Forall_nil]]).
    unfold has_value in *. assert (e = look (x_heap s1) 18) as <- by congruence. exact H.
  - exact (C96_later_change verbatim DX 18 new_value s1 s2 [] s2 [] s3 [] s3 [] RE P eq_refl (Forall_nil _) (Forall_nil _) C eq_refl (Forall_nil _) (Forall_nil _) (Forall_nil _)).
  - intros Q. rewrite Q in T. revert T. vm_compute. discriminate.
Qed.
Print Assumptions C96_shared_refuted.
(* and an object given for two dimensions: changing the extent of the one changes the other *)
Theorem C96_two_dimensions_refuted : exists s1 s2 s3 s4 a e, reached verbatim s1 /\ xstep verbatim (XPut DX a) s1 = (s2, Ok None) /\ xstep verbatim (XPut DY a) s2 = (s3, Ok None) /\ ~ held_at (x_w s3) DY e /\
  xstep verbatim (XCall (WSetExtent 0 e)) s3 = (s4, Ok None) /\ held_at (x_w s4) DY e.
Proof.
  destruct round_config_ok as (RD & I). destruct (put_test_ok round_config [XNew f0 f1 f0 f1] (fun _ s => match xstep verbatim (XPut DX 18) s with (s2, Ok None) => match xstep verbatim (XPut DY 18) s2 with (s3, Ok None) => match xstep verbatim (XCall (WSetExtent 0 new_value)) s3 with (_, Ok None) =>
    feq (ex_min (look (x_heap s3) 18)) f0 && match nth_error (x_slots s3) 0 with Some a => Nat.eqb a 18 | _ => false end | _ => false end | _ => false end | _ => false end)) as (w0 & s1 & lg & w & O & R & D & _ & _ & T); [vm_compute; reflexivity|].
  destruct (xstep verbatim (XPut DX 18) s1) as (s2, [[?|]| |]) eqn:P; [discriminate T| |discriminate T..]. destruct (xstep verbatim (XPut DY 18) s2) as (s3, [[?|]| |]) eqn:P2; [discriminate T| |discriminate T..]. destruct (xstep verbatim (XCall (WSetExtent 0 new_value)) s3) as (s4, [[?|]| |]) eqn:C; [discriminate T| |discriminate T..].
  apply andb_prop in T as (T & L). destruct (nth_error (x_slots s3) 0) as [a|] eqn:N; [|discriminate L]. apply Nat.eqb_eq in L. subst a.
  assert (RE : reached verbatim s1) by (exists None, round_config, no_overrides, w0, [XNew f0 f1 f0 f1], lg; auto).
  assert (RE2 : reached verbatim s2).
  { exists None, round_config, no_overrides, w0, [XNew f0 f1 f0 f1; XPut DX 18], (lg ++ [(XPut DX 18, Ok None)]). split; [exact O|].
    destruct (run_cons _ _ _ _ _ _ R D) as (x & o & lg2 & E & NU & R2 & -> & D2). cbn [xrun] in R2. apply pair_equal_spec in R2 as (-> & <-). split; [|apply Forall_app; split; [exact D|apply Forall_cons; [discriminate|apply Forall_nil]]].
    cbn [xrun]. rewrite E, P. destruct o; [reflexivity|reflexivity|contradiction]. }
  exists s1, s2, s3, s4, 18%nat, new_value. split; [exact RE|]. split; [exact P|]. split; [exact P2|]. split; [|split; [exact C|]].
  - intros H. destruct (C96_put_shows verbatim DY 18 s2 s3 [] s3 [] RE2 P2 eq_refl (Forall_nil _) (Forall_nil _)) as (e & V' & H'). unfold held_at in *. assert (e = new_value) as -> by congruence.
    unfold has_value in V'. unfold look in T. rewrite (nth_error_nth _ _ default_extent V') in T. revert T. vm_compute. discriminate.
  - destruct (C96_put_shows verbatim DY 18 s2 s3 [XCall (WSetExtent 0 new_value)] s4 [(XCall (WSetExtent 0 new_value), Ok None)] RE2 P2) as (e & V' & H'); [cbn [xrun]; rewrite C; reflexivity|apply Forall_cons; [discriminate|apply Forall_nil]|apply Forall_cons; [exact Logic.I|apply Forall_nil]|].
    cbn [xstep] in C. cbv zeta in C. rewrite N in C. unfold change in C. destruct (set_nth 18 new_value (x_heap s3)) as [h| |] eqn:S; [|apply (f_equal snd) in C; discriminate C..]. apply (f_equal fst) in C. cbn [fst] in C. subst s4.
    unfold has_value in V'. cbn [show x_heap] in V'. rewrite (set_nth_at _ _ _ _ S), Nat.eqb_refl in V'. assert (e = new_value) as <- by congruence. exact H'.
Qed.
Print Assumptions C96_two_dimensions_refuted.

(* desired: whole extents can be assigned to a Writer at any time before Close.  False of the code.  A Writer made without extended
   statistics that is given extents with them: Close succeeds, but it writes the VLRs and the position of the chunk table over points that
   had been written, and no Reader opens the file *)
Definition bare_config : config := match new_config 7 unit_vec zero_vec [65; 66] [an_eb] false with Ok c => c | _ => a_config end.
Lemma bare_config_ok : ready bare_config /\ init_writer bare_config no_overrides = Ok bare_config.
Proof.
  destruct (fresh_ready 7 unit_vec zero_vec [65; 66] [an_eb] false) as (c & E & R & I); [lia|repeat constructor; cbn; lia|unfold wf_eb; repeat constructor; cbn; lia|cbn; lia|vm_compute; reflexivity|].
  unfold bare_config. rewrite E. auto.
Qed.
Definition a_node : xop := XCall (WAdd root_key (repeat 9 48) root_key).
Definition whole_test (c : config) (f : Z) (x : bool) (l : list nat) (t : writer -> writer -> writer -> outcome unit -> node -> bool) : bool :=
  match open_writer None c no_overrides with
  | Ok w0 => let '(s, lg) := xrun verbatim [a_node; XWhole f x l] (start w0) in
      let '(w, o) := close verbatim plain (x_w s) in
      match lg with [(_, Ok (Some n)); (_, Ok None)] => t w0 (x_w s) w o n | _ => false end
  | _ => false end.
Lemma whole_test_ok c f x l t : whole_test c f x l t = true -> exists w0 s lg w o n, open_writer None c no_overrides = Ok w0 /\ xrun verbatim [a_node; XWhole f x l] (start w0) = (s, lg) /\ close verbatim plain (x_w s) = (w, o) /\ map snd lg = [Ok (Some n); Ok None] /\ t w0 (x_w s) w o n = true.
Proof.
  unfold whole_test. destruct (open_writer None c no_overrides) as [w0| |]; intros H; [|discriminate H..]. destruct (xrun verbatim _ (start w0)) as (s, lg) eqn:R. destruct (close verbatim plain (x_w s)) as (w, o) eqn:C.
  destruct lg as [|(a, [[n|]| |]) [|(b, [[?|]| |]) [|? ?]]]; try discriminate H. exists w0, s, [(a, Ok (Some n)); (b, Ok None)], w, o, n. split; [reflexivity|]. split; [exact R|]. split; [exact C|]. split; [reflexivity|exact H].
Qed.
Definition unreadable (w : writer) : bool := match open_reader true (file w) with Throw => true | _ => false end.
Lemma unreadable_ok w : unreadable w = true -> open_reader true (file w) = Throw.
Proof. unfold unreadable. destruct (open_reader true (file w)); congruence. Qed.
Lemma same_bytes_refl a : same_bytes a a = true.
Proof. unfold same_bytes. destruct (list_eq_dec Z.eq_dec a a); congruence. Qed.
Theorem C97_other_flag_refuted : exists c w0 l s lg w n, ready c /\ init_writer c no_overrides = Ok c /\ open_writer None c no_overrides = Ok w0 /\ xs_fmt (c_exts (w_cfg w0)) = 7 /\ length l = length (held_extents w0) /\
  xrun verbatim [a_node; XWhole 7 true l] (start w0) = (s, lg) /\ map snd lg = [Ok (Some n); Ok None] /\ close verbatim plain (x_w s) = (w, Ok tt) /\
  chunk_in (file (x_w s)) n = repeat 9 48 /\ chunk_in (file w) n <> repeat 9 48 /\ open_reader true (file w) = Throw.
Proof.
  destruct bare_config_ok as (RD & I). destruct (whole_test_ok bare_config 7 true (seq 0 18) (fun w0 w1 w o n => is_ok o && (xs_fmt (c_exts (w_cfg w0)) =? 7) && Nat.eqb 18 (length (held_extents w0)) && same_bytes (chunk_in (file w1) n) (repeat 9 48) && negb (same_bytes (chunk_in (file w) n) (repeat 9 48)) && unreadable w)) as (w0 & s & lg & w & o & n & O & R & C & M & T); [vm_compute; reflexivity|].
  apply andb_prop in T as (T & T6). apply andb_prop in T as (T & T5). apply andb_prop in T as (T & T4). apply andb_prop in T as (T & T3). apply andb_prop in T as (T1 & T2). apply is_ok_eq in T1. subst o. apply Z.eqb_eq in T2. apply Nat.eqb_eq in T3. apply same_bytes_eq in T4. apply unreadable_ok in T6. apply negb_true_iff in T5.
  exists bare_config, w0, (seq 0 18), s, lg, w, n. split; [exact RD|]. split; [exact I|]. split; [exact O|]. split; [exact T2|]. split; [exact T3|]. split; [exact R|]. split; [exact M|]. split; [exact C|]. split; [exact T4|]. split; [|exact T6].
  intros Q. rewrite Q, same_bytes_refl in T5. discriminate T5.
Qed.
Print Assumptions C97_other_flag_refuted.
(* extents of a format with fewer dimensions: Close succeeds and no Reader opens the file *)
Theorem C97_fewer_refuted : exists c w0 l s lg w n, ready c /\ init_writer c no_overrides = Ok c /\ open_writer None c no_overrides = Ok w0 /\ xs_fmt (c_exts (w_cfg w0)) = 7 /\ xs_ext (c_exts (w_cfg w0)) = false /\
  xrun verbatim [a_node; XWhole 6 false l] (start w0) = (s, lg) /\ map snd lg = [Ok (Some n); Ok None] /\ close verbatim plain (x_w s) = (w, Ok tt) /\ open_reader true (file w) = Throw.
Proof.
  destruct bare_config_ok as (RD & I). destruct (whole_test_ok bare_config 6 false (seq 0 15) (fun w0 w1 w o n => is_ok o && (xs_fmt (c_exts (w_cfg w0)) =? 7) && negb (xs_ext (c_exts (w_cfg w0))) && unreadable w)) as (w0 & s & lg & w & o & n & O & R & C & M & T); [vm_compute; reflexivity|].
  apply andb_prop in T as (T & T4). apply andb_prop in T as (T & T3). apply andb_prop in T as (T1 & T2). apply is_ok_eq in T1. subst o. apply Z.eqb_eq in T2. apply negb_true_iff in T3. apply unreadable_ok in T4.
  exists bare_config, w0, (seq 0 15), s, lg, w, n. auto 12.
Qed.
Print Assumptions C97_fewer_refuted.
(* extents with one dimension more: Close throws, and points that had been written are lost *)
Theorem C97_more_refuted : exists c w0 l s lg w n, ready c /\ init_writer c no_overrides = Ok c /\ open_writer None c no_overrides = Ok w0 /\ xs_fmt (c_exts (w_cfg w0)) = 7 /\ xs_ext (c_exts (w_cfg w0)) = false /\
  xrun verbatim [a_node; XWhole 8 false l] (start w0) = (s, lg) /\ map snd lg = [Ok (Some n); Ok None] /\ close verbatim plain (x_w s) = (w, Throw) /\
  chunk_in (file (x_w s)) n = repeat 9 48 /\ chunk_in (file w) n <> repeat 9 48.
Proof.
  destruct bare_config_ok as (RD & I). destruct (whole_test_ok bare_config 8 false (seq 0 18 ++ [0%nat]) (fun w0 w1 w o n => match o with Throw => true | _ => false end && (xs_fmt (c_exts (w_cfg w0)) =? 7) && negb (xs_ext (c_exts (w_cfg w0))) && same_bytes (chunk_in (file w1) n) (repeat 9 48) && negb (same_bytes (chunk_in (file w) n) (repeat 9 48)))) as (w0 & s & lg & w & o & n & O & R & C & M & T); [vm_compute; reflexivity|].
  apply andb_prop in T as (T & T5). apply andb_prop in T as (T & T4). apply andb_prop in T as (T & T3). apply andb_prop in T as (T1 & T2). destruct o; try discriminate T1. apply Z.eqb_eq in T2. apply negb_true_iff in T3, T5. apply same_bytes_eq in T4.
  exists bare_config, w0, (seq 0 18 ++ [0%nat]), s, lg, w, n. split; [exact RD|]. split; [exact I|]. split; [exact O|]. split; [exact T2|]. split; [exact T3|]. split; [exact R|]. split; [exact M|]. split; [exact C|]. split; [exact T4|].
  intros Q. rewrite Q, same_bytes_refl in T5. discriminate T5.
Qed.
Print Assumptions C97_more_refuted.
Example C97_nonvacuous : exists s1 s2 l vs, reached verbatim s1 /\ same_shape (x_w s1) (XWhole 7 true l) /\ xstep verbatim (XWhole 7 true l) s1 = (s2, Ok None) /\ Forall2 (has_value s1) l vs /\ has_dim 7 DX /\ nth_error l (spec_slot DX) = Some 18%nat.
Proof.
  destruct round_config_ok as (RD & I). set (l := ([18; 18] ++ seq 2 16)%nat).
  destruct (put_test_ok round_config [XNew f0 f1 f0 f1] (fun _ s => shape_b (x_w s) (XWhole 7 true l) && forallb (fun a => (a <? length (x_heap s))%nat) l)) as (w0 & s1 & lg & w & O & R & D & _ & _ & T); [vm_compute; reflexivity|].
  apply andb_prop in T as (T1 & T2). exists s1, (show (x_heap s1) l (as_shape 7 true (x_w s1))), l, (map (look (x_heap s1)) l).
  split; [exists None, round_config, no_overrides, w0, [XNew f0 f1 f0 f1], lg; auto|]. split; [apply (Forall_inv (shape_b_ok (x_w s1) [XWhole 7 true l] ltac:(cbn [forallb]; now rewrite T1)))|]. split; [cbn [xstep]; unfold assign_extents; now rewrite T2|]. split; [|split; [exact Logic.I|reflexivity]].
  rewrite forallb_forall in T2. clear - T2. induction l as [|a l IH]; [constructor|]. cbn [map]. constructor; [apply nth_error_nth'; apply Nat.ltb_lt, T2; now left|]. apply IH. intros b B. apply T2. now right.
Qed.
