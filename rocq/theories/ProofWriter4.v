(* ProofWriter4.v - sequences of calls: nodes and pages *)
From Verif Require Import Base BaseFacts ModelFloat ModelKey ModelGeom ModelEntry ModelPoint ModelPoints ModelHeader ModelVlr ModelExtents ModelConfig
  ModelStream ModelWriter SpecKey SpecPoint SpecConfig SpecWriter ProofKey ProofPoint ProofPoints ProofExtents ProofConfig ProofStream
  ProofWriter ProofWriter2 ProofWriter3.

(* what an accepted call returns *)
Definition node_ok (op : wop) (n : node) : Prop := exists k p, add_args op = Some (k, p) /\ e_key (n_entry n) = k /\ n_page n = p /\
  child_of k p = true /\ int32_key k /\ int32_key p /\ -2^31 <= e_count (n_entry n) < 2^31 /\ e_count (n_entry n) <> 0 /\
  (match op with WAddCompressed _ _ c _ => e_count (n_entry n) = c | _ => 0 < e_count (n_entry n) end).

Lemma add_args_wf op k p : add_args op = Some (k, p) -> wf_op op -> int32_key k /\ int32_key p.
Proof. destruct op; try discriminate; cbn [add_args wf_op]; intros [= <- <-]; tauto. Qed.

Lemma step_hier cd op w w' r start cs v : wf_op op -> 0 < start -> cfg_ok (w_cfg w) -> binv start cs (w_base w) -> hinv v w ->
  wstep cd op w = (w', r) -> Z.of_nat (length (file w')) < 2 ^ 64 -> r <> UB ->
  (forall n, r = Ok (Some n) -> node_ok op n) /\ (calm v (op, r) -> hinv (see v (op, r)) w').
Proof.
  intros WF S G I HI H L NU. destruct (add_args op) as [(k, p)|] eqn:A.
  - destruct (add_args_wf _ _ _ A WF) as (K32 & P32).
    destruct (wstep_add _ _ _ _ _ _ _ _ _ A WF S G I H L) as [(-> & R)|(x & n & C & CO & N1 & N2 & N3 & B & F & T)].
    + destruct R as [-> | ->]; [|congruence]. split; [discriminate|]. intros _. destruct op; try discriminate A; exact HI.
    + destruct T as [(Hx & -> & T1 & T2)|(Hx & -> & T1 & T2)].
      * split; [discriminate|]. intros _. assert (HI' : hinv v w'). { destruct HI as [I1 I2 I3 I4 I5]. constructor; rewrite ?T1, ?T2; auto. }
        destruct op; try discriminate A; exact HI'.
      * split.
        -- intros m [= <-]. exists k, p. cbn [e_key n_entry n_page e_count]. repeat (split; [assumption || reflexivity|]).
           destruct op; try discriminate A; try exact N3. cbn [chunk_of] in C. now injection C.
        -- intros CALM. assert (CALM' : forall m q, v k = Some (m, q) -> q = p).
           { destruct op; try discriminate A; injection A as -> ->; exact CALM. }
           set (nd := mkNode _ p) in *.
           assert (E : see v (op, Ok (Some nd)) = set_view k (nd, p) v) by (destruct op; try discriminate A; injection A as -> ->; reflexivity).
           rewrite E. eapply hinv_add; eauto.
  - split; [intros n ->; destruct (wstep_other _ _ _ _ _ A WF G H) as (_ & _ & _ & _ & [|[(_ & ?)|]] & _); discriminate|].
    intros CALM. destruct (wstep_other _ _ _ _ _ A WF G H) as (F1 & F2 & _ & _ & R & F3).
    destruct op as [| | |k page|h|i|slot e]; try discriminate A.
    + destruct r as [o| |]; [| |congruence].
      * assert (o = None) as -> by (destruct R as [[= ->]|[(_ & ?)| ?]]; [reflexivity|discriminate..]).
        cbn [wstep] in H. destruct (change_node_page k page w) as (w1, r1) eqn:E.
        destruct r1 as [[]| |]; try discriminate. injection H as <-. cbn [calm] in CALM.
        destruct (hinv_move _ _ _ _ _ _ HI (proj2 WF) CALM E) as (_ & _ & M). destruct (M eq_refl) as (n & q & V & X).
        cbn [see]. now rewrite V.
      * destruct R as [?|[(-> & _)|?]]; [discriminate| |discriminate]. exact HI.
    + assert (P : w_pages w' = w_pages w) by (apply F3; discriminate). replace (see v (WSetHeader h, r)) with v by now destruct r.
      destruct HI as [I1 I2 I3 I4 I5]. constructor; rewrite ?F2, ?P; auto.
    + assert (P : w_pages w' = w_pages w) by (apply F3; discriminate). replace (see v (WSetInfo i, r)) with v by now destruct r.
      destruct HI as [I1 I2 I3 I4 I5]. constructor; rewrite ?F2, ?P; auto.
    + assert (P : w_pages w' = w_pages w) by (apply F3; discriminate). replace (see v (WSetExtent slot e, r)) with v by now destruct r.
      destruct HI as [I1 I2 I3 I4 I5]. constructor; rewrite ?F2, ?P; auto.
Qed.

Lemma run_hier cd ops : forall w w' l start cs v, Forall wf_op ops -> 0 < start -> cfg_ok (w_cfg w) -> binv start cs (w_base w) -> hinv v w ->
  wrun cd ops w = (w', l) -> Z.of_nat (length (file w')) < 2 ^ 64 -> all_defined l -> settled_from v l ->
  hinv (fold_left see l v) w' /\ (forall op n, In (op, Ok (Some n)) l -> node_ok op n /\ In op ops).
Proof.
  induction ops as [|op ops IH]; intros w w' l start cs v WF S G I HI H L AD ST.
  { cbn [wrun] in H. injection H as <- <-. split; [exact HI|]. intros op n []. }
  inversion WF as [|? ? W1 W2]; subst. cbn [wrun] in H. destruct (wstep cd op w) as (w1, r) eqn:E.
  pose proof (wstep_grows _ _ _ _ _ (proj1 I) E) as GR.
  assert (NU : r <> UB). { intros ->. injection H as <- <-. inversion AD as [|? ? X _]; subst. now apply X. }
  assert (Rest : exists l2, wrun cd ops w1 = (w', l2) /\ l = (op, r) :: l2).
  { destruct r; [| |congruence]; (destruct (wrun cd ops w1) as (w2, l2); injection H as <- <-; eauto). }
  destruct Rest as (l2 & R & ->). inversion AD as [|? ? _ AD2]; subst. destruct ST as (ST1 & ST2).
  pose proof (wrun_grows _ _ _ _ _ (proj1 GR) R) as GR2. pose proof (grows_le _ _ GR2) as LE.
  destruct (step_base _ _ _ _ _ _ _ W1 S G I E ltac:(lia)) as (cs1 & B & G1 & X & _).
  destruct (step_hier _ _ _ _ _ _ _ _ W1 S G I HI E ltac:(lia) NU) as (N1 & HI1).
  destruct (IH _ _ _ _ _ _ W2 S G1 B (HI1 ST1) R L AD2 ST2) as (HI2 & N2).
  split; [exact HI2|]. intros o n [[= <- ->]|Hin].
  - split; [now apply N1|now left].
  - destruct (N2 o n Hin). split; [assumption|now right].
Qed.

(* every node of the view was returned by a call of the log *)
Lemma view_from_log l : forall v k n p, (forall op m, In (op, Ok (Some m)) l -> exists q, add_args op = Some (e_key (n_entry m), q)) ->
  fold_left see l v k = Some (n, p) -> (exists q, v k = Some (n, q)) \/ exists op, In (op, Ok (Some n)) l /\ e_key (n_entry n) = k.
Proof.
  induction l as [|(op, r) l IH]; intros v k n p W H; [left; eauto|]. cbn [fold_left] in H.
  destruct (IH _ _ _ _ (fun o m Hin => W o m (or_intror Hin)) H) as [(q & E)|(o & Hin & K)]; [|right; exists o; split; [now right|exact K]].
  assert (Add : forall k1 p1 n1, set_view k1 (n1, p1) v k = Some (n, q) -> (k1 = k /\ n = n1) \/ (exists q, v k = Some (n, q))).
  { intros k1 p1 n1. unfold set_view. destruct (key_eqb_spec k1 k); [intros [= <- <-]; auto|eauto]. }
  assert (Same : see v (op, r) = v -> (exists q, v k = Some (n, q)) \/ exists o, In (o, Ok (Some n)) ((op, r) :: l) /\ e_key (n_entry n) = k).
  { intros X. rewrite X in E. eauto. }
  assert (New : forall k1 p1 n1, add_args op = Some (k1, p1) -> r = Ok (Some n1) -> see v (op, r) = set_view k1 (n1, p1) v ->
    (exists q, v k = Some (n, q)) \/ exists o, In (o, Ok (Some n)) ((op, r) :: l) /\ e_key (n_entry n) = k).
  { intros k1 p1 n1 A R X. rewrite X in E. destruct (Add _ _ _ E) as [(<- & ->)|T]; [right|now left]. exists op. rewrite R. split; [now left|].
    destruct (W op n1) as (q1 & A'); [rewrite R; now left|]. congruence. }
  destruct op as [k1 d1 p1|k1 h1 c1 p1|k1 d1 c1 p1|k1 p1|h|i|s x]; destruct r as [[n1|]| |]; try (apply Same; reflexivity);
    try (eapply New; reflexivity).
  - cbn [see] in E. destruct (v k1) as [(n0, q0)|] eqn:V; [|eauto]. destruct (Add _ _ _ E) as [(<- & ->)|T]; eauto.
  - cbn [see] in E. destruct (v k1) as [(n0, q0)|] eqn:V; [|eauto]. destruct (Add _ _ _ E) as [(<- & ->)|T]; eauto.
Qed.

(* a new writer *)
Lemma open_spec c v w : open_writer None c v = Ok w -> exists c0, init_writer c v = Ok c0 /\ w_cfg w = c0 /\ exists poff, copc_offset c0 = Ok poff /\
  w = mkW (mkBW (put (zeros (Z.to_nat (first_chunk_offset poff))) (empty_out None)) true [] 0 0 0) c0 [] [(root_key, new_wpage)].
Proof.
  unfold open_writer. intros H. apply bind_ok in H as (c0 & E & H). apply bind_ok in H as (poff & E2 & H). injection H as <-.
  exists c0. split; [exact E|]. split; [reflexivity|]. exists poff. now split.
Qed.
Lemma open_inv c v w c0 : open_writer None c v = Ok w -> init_writer c v = Ok c0 -> ready c0 ->
  w_cfg w = c0 /\ cfg_ok c0 /\ 0 < data_start c0 + 8 /\ binv (data_start c0 + 8) [] (w_base w) /\ hinv (fun _ => None) w.
Proof.
  intros H E R. destruct (open_spec _ _ _ H) as (c1 & E1 & C & poff & P & W). assert (c1 = c0) as -> by congruence.
  pose proof (ready_ok _ R) as G. destruct (copc_offset_ok _ G) as (P' & PR). assert (poff = data_start c0) as -> by congruence.
  split; [exact C|]. split; [exact G|]. split; [lia|]. split.
  - subst w. cbn [w_base]. rewrite put_end by now repeat split. cbn [empty_out o_data]. unfold binv; cbn [b_out o_data b_open b_chunks b_points b_evcnt].
    split; [now repeat split|]. unfold first_chunk_offset. split; [now rewrite app_nil_r|]. repeat split.
  - subst w. constructor; cbn [w_loaded w_pages].
    + reflexivity.
    + repeat constructor. intros [].
    + exists new_wpage. reflexivity.
    + intros p P0 X. cbn [mget] in X. destruct (key_eqb_spec root_key p) as [<-|]; [|discriminate]. injection X as <-.
      split; [repeat split; cbn; lia|]. split; [repeat split; cbn; lia|]. split; [reflexivity|]. split; [constructor|]. split; [|congruence].
      intros k n. cbn. split; discriminate.
    + discriminate.
Qed.
