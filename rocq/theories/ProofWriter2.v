(* ProofWriter2.v - sequences of calls: the stream and the configuration *)
From Verif Require Import Base BaseFacts ModelFloat ModelKey ModelGeom ModelEntry ModelPoint ModelPoints ModelHeader ModelVlr ModelExtents ModelConfig
  ModelStream ModelWriter SpecKey SpecPoint SpecConfig SpecWriter ProofKey ProofPoint ProofPoints ProofExtents ProofConfig ProofStream ProofWriter.

Definition grows (w w' : writer) : Prop := at_end (b_out (w_base w')) /\ exists x, file w' = file w ++ x.
Lemma grows_refl w : at_end (b_out (w_base w)) -> grows w w.
Proof. intros A. split; [exact A|]. exists []. now rewrite app_nil_r. Qed.
Lemma grows_trans a b c : grows a b -> grows b c -> grows a c.
Proof. intros (_ & x & E) (A & y & F). split; [exact A|]. exists (x ++ y). now rewrite F, E, app_assoc. Qed.
Lemma grows_le a b : grows a b -> Z.of_nat (length (file a)) <= Z.of_nat (length (file b)).
Proof. intros (_ & x & E). rewrite E, app_length. lia. Qed.

Lemma write_chunk_grows cd h data count compressed b b' r : at_end (b_out b) -> write_chunk cd h data count compressed b = (b', r) ->
  at_end (b_out b') /\ exists x, o_data (b_out b') = o_data (b_out b) ++ x.
Proof.
  intros A W. unfold write_chunk in W. change (if compressed then _ else _) with (chunk_source cd h data count compressed) in W.
  assert (N : at_end (b_out b) /\ exists x, o_data (b_out b) = o_data (b_out b) ++ x).
  { split; [exact A|]. exists []. now rewrite app_nil_r. }
  destruct (_ <=? 0); [injection W as <- <-; exact N|].
  destruct (chunk_source _ _ _ _ _) as [(x, n)| |]; [|injection W as <- <-; exact N..].
  pose proof (put_at_end x _ A) as A'. pose proof (put_end x _ A) as E.
  destruct (_ <=? 0); [|destruct (_ <? _)]; injection W as <- <-; cbn [b_out]; (split; [exact A'|exists x; now rewrite E]).
Qed.
Lemma do_add_grows cd k data count compressed p w w' r : at_end (b_out (w_base w)) -> do_add_node cd k data count compressed p w = (w', r) -> grows w w'.
Proof.
  intros A H. unfold do_add_node in H. destruct (_ || _); [injection H as <- <-; now apply grows_refl|].
  destruct (negb _); [injection H as <- <-; now apply grows_refl|].
  destruct (write_chunk _ _ _ _ _ _) as (b, res) eqn:W. destruct (write_chunk_grows _ _ _ _ _ _ _ _ A W) as (A' & x & E).
  destruct res as [((off, size), n)| |]; injection H as <- <-; (split; [exact A'|exists x; exact E]).
Qed.
Lemma some_node_inv x w r : some_node x = (w, r) -> w = fst x /\ r = match snd x with Ok n => Ok (Some n) | Throw => Throw | UB => UB end.
Proof. destruct x as (w0, [n| |]); cbn; intros [= <- <-]; auto. Qed.
Lemma wstep_grows cd op w w' r : at_end (b_out (w_base w)) -> wstep cd op w = (w', r) -> grows w w'.
Proof.
  intros A H. pose proof (grows_refl w A) as N.
  assert (AN : forall k data p, grows w (fst (add_node cd k data p w))).
  { intros. unfold add_node. destruct data as [|]; [exact N|]. destruct (_ =? 0); [exact N|]. destruct (negb _); [exact N|].
    destruct (do_add_node _ _ _ _ _ _ _) as (w2, r2) eqn:D. exact (do_add_grows _ _ _ _ _ _ _ _ _ A D). }
  destruct op; cbn [wstep] in H.
  - apply some_node_inv in H as (-> & _). apply AN.
  - apply some_node_inv in H as (-> & _). unfold add_node_points. destruct (c_pts c); [exact N|]. destruct (_ || _); [exact N|].
    destruct (points_pack _ _ _ _); [apply AN|exact N..].
  - apply some_node_inv in H as (-> & _). unfold add_node_compressed. destruct (_ =? 0); [exact N|].
    destruct (do_add_node _ _ _ _ _ _ _) as (w2, r2) eqn:D. exact (do_add_grows _ _ _ _ _ _ _ _ _ A D).
  - assert (F : w_base w' = w_base w).
    { unfold change_node_page in H. destruct (negb (key_valid k)); [now injection H as <- _|]. destruct (negb (key_valid page)); [now injection H as <- _|].
      destruct (mget k (w_loaded w)) as [nd|]; [|now injection H as <- _]. destruct (negb (child_of k page)); [now injection H as <- _|].
      destruct (key_eqb (n_page nd) page); [now injection H as <- _|]. destruct (mget (n_page nd) _); now injection H as <- _. }
    split; [now rewrite F|exists []; unfold file; now rewrite F, app_nil_r].
  - destruct (edit_header _ _); injection H as <- <-; exact N.
  - injection H as <- <-. exact N.
  - destruct (set_nth _ _ _); injection H as <- <-; exact N.
Qed.
Lemma wrun_grows cd ops : forall w w' l, at_end (b_out (w_base w)) -> wrun cd ops w = (w', l) -> grows w w'.
Proof.
  induction ops as [|op ops IH]; intros w w' l A H; cbn [wrun] in H; [injection H as <- <-; now apply grows_refl|].
  destruct (wstep cd op w) as (w1, r) eqn:S. pose proof (wstep_grows _ _ _ _ _ A S) as G.
  destruct r; [| |injection H as <- <-; exact G];
    (destruct (wrun cd ops w1) as (w2, l2) eqn:R; injection H as <- <-; apply (grows_trans _ _ _ G); apply (IH _ _ _ (proj1 G) R)).
Qed.

Lemma edit_header_ok old new h : edit_header old new = Ok h ->
  h = mkHdr (h_src new) (h_enc new) (h_day new) (h_year new) (h_max new) (h_min new) (h_pbr new) (h_scale old) (h_offset old)
        (h_fmt old) (h_reclen old) (h_pcount old) (h_poff old) (h_vlrs old) (h_evoff old) (h_evcnt old)
        (h_guid new) (h_sys new) (h_gen new) (h_copc old).
Proof.
  unfold edit_header, set_guid, set_system_identifier, set_generating_software.
  destruct (16 <? length (h_guid new))%nat; [discriminate|]. cbn [bind].
  destruct (32 <? length (h_sys new))%nat; [discriminate|]. cbn [bind].
  destruct (32 <? length (h_gen new))%nat; [discriminate|]. cbn [bind]. now intros [= <-].
Qed.

(* calls that are not AddNode leave the stream alone and keep the configuration's fixed parts *)
Lemma wstep_other cd op w w' r : add_args op = None -> wf_op op -> cfg_ok (w_cfg w) -> wstep cd op w = (w', r) ->
  w_base w' = w_base w /\ w_loaded w' = w_loaded w /\ fixed_parts (w_cfg w) (w_cfg w') /\ cfg_ok (w_cfg w') /\
  (r = Ok None \/ (w' = w /\ r = Throw) \/ r = UB) /\
  ((forall k p, op <> WMove k p) -> w_pages w' = w_pages w).
Proof.
  intros A WF G H. destruct op as [| | |k page|h|i|slot e]; try discriminate A; cbn [wstep] in H.
  - assert (F : w_base w' = w_base w /\ w_loaded w' = w_loaded w /\ w_cfg w' = w_cfg w /\ (r = Ok None \/ (w' = w /\ r = Throw) \/ r = UB)).
    { unfold change_node_page in H. destruct (negb (key_valid k)); [injection H as <- <-; auto 10|]. destruct (negb (key_valid page)); [injection H as <- <-; auto 10|].
      destruct (mget k (w_loaded w)) as [nd|]; [|injection H as <- <-; auto 10]. destruct (negb (child_of k page)); [injection H as <- <-; auto 10|].
      destruct (key_eqb (n_page nd) page); [injection H as <- <-; auto 10|]. destruct (mget (n_page nd) _); injection H as <- <-; auto 10. }
    destruct F as (F1 & F2 & F3 & F4). rewrite F3. split; [exact F1|]. split; [exact F2|]. split; [apply fixed_refl|].
    split; [exact G|]. split; [exact F4|]. intros N. now destruct (N k page).
  - destruct (edit_header (c_hdr (w_cfg w)) h) as [h'| |] eqn:E; injection H as <- <-.
    + apply edit_header_ok in E. cbn [with_cfg w_base w_loaded w_cfg w_pages]. split; [reflexivity|]. split; [reflexivity|].
      split; [subst h'; repeat split|]. split; [|auto].
      destruct G as (G1 & G2 & G3 & G4 & G5 & G6 & G7 & G8 & G9). subst h'. unfold cfg_ok; cbn.
      repeat (split; [assumption|]). split; [|auto].
      cbn [wf_op] in WF. unfold wf_hdr in *; cbn. tauto.
    + repeat split; try apply G; auto.
    + repeat split; try apply G; auto.
  - injection H as <- <-. cbn [with_cfg w_base w_loaded w_cfg w_pages]. split; [reflexivity|]. split; [reflexivity|].
    split; [repeat split|]. split; [|auto].
    destruct G as (G1 & G2 & G3 & G4 & G5 & G6 & G7 & G8 & G9). unfold cfg_ok; cbn. repeat (split; [assumption|]). assumption.
  - destruct (set_nth slot e (xs_items (c_exts (w_cfg w)))) as [l| |] eqn:E; injection H as <- <-.
    + cbn [with_cfg w_base w_loaded w_cfg w_pages]. split; [reflexivity|]. split; [reflexivity|].
      split; [repeat split|]. split; [|auto].
      assert (Hlt : (slot < length (xs_items (c_exts (w_cfg w))))%nat).
      { clear - E. revert slot l E. generalize (xs_items (c_exts (w_cfg w))). intros l0; induction l0 as [|a l0 IH]; intros slot l' E; [destruct slot; discriminate E|].
        destruct slot as [|slot]; cbn [length]; [lia|]. cbn [set_nth] in E. apply bind_ok in E as (r' & E & _). apply IH in E. lia. }
      destruct (set_nth_ok e slot _ Hlt) as (l' & E' & Ln & _). rewrite E in E'. injection E' as <-.
      destruct G as (G1 & G2 & G3 & (S1 & S2 & S3) & G5 & G6 & G7 & G8 & G9). unfold cfg_ok, shaped; cbn.
      rewrite Ln. repeat (split; [assumption|]). split; [repeat (split; [assumption|]); assumption|]. repeat (split; [assumption|]). assumption.
    + repeat split; try apply G; auto.
    + repeat split; try apply G; auto.
Qed.

(* ---- sequences of calls ---- *)
Definition placed (start : Z) (cs : list (bytes * Z)) (x : bytes) (n : node) : Prop :=
  exists pre post, cs = pre ++ (x, e_count (n_entry n)) :: post /\ e_offset (n_entry n) = start + Z.of_nat (length (cdata pre)) /\
    e_size (n_entry n) = Z.of_nat (length x) /\ Z.of_nat (length x) <= INT32_MAX.
Lemma placed_app start cs cs' x n : placed start cs x n -> placed start (cs ++ cs') x n.
Proof. intros (pre & post & -> & T). exists pre, (post ++ cs'). rewrite <- app_assoc. now split. Qed.

Lemma step_base cd op w w' r start cs : wf_op op -> 0 < start -> cfg_ok (w_cfg w) -> binv start cs (w_base w) -> wstep cd op w = (w', r) ->
  Z.of_nat (length (file w')) < 2 ^ 64 ->
  exists cs', binv start (cs ++ cs') (w_base w') /\ cfg_ok (w_cfg w') /\ fixed_parts (w_cfg w) (w_cfg w') /\
    (match r with Ok (Some n) => exists x, cs' = [(x, e_count (n_entry n))] /\ chunk_of cd (c_hdr (w_cfg w)) op = Some (x, e_count (n_entry n)) /\
                   placed start (cs ++ cs') x n
     | _ => cs' = [] \/ exists x n, chunk_of cd (c_hdr (w_cfg w)) op = Some (x, n) /\ INT32_MAX < Z.of_nat (length x) end).
Proof.
  intros WF S G I H L. destruct (add_args op) as [(k, p)|] eqn:A.
  - destruct (wstep_add _ _ _ _ _ _ _ _ _ A WF S G I H L) as [(-> & R)|(x & n & C & _ & _ & _ & _ & B & F & T)].
    + exists []. rewrite app_nil_r. split; [exact I|]. split; [exact G|]. split; [apply fixed_refl|]. destruct R as [-> | ->]; now left.
    + exists [(x, n)]. split; [exact B|]. rewrite F. split; [exact G|]. split; [apply fixed_refl|].
      destruct T as [(Hx & -> & _)|(Hx & -> & _)].
      * right. exists x, n. now split.
      * exists x. split; [reflexivity|]. split; [exact C|]. exists cs, []. cbn. now repeat split.
  - destruct (wstep_other _ _ _ _ _ A WF G H) as (F & _ & X & G' & R & _). exists []. rewrite app_nil_r, F.
    split; [exact I|]. split; [exact G'|]. split; [exact X|]. destruct R as [-> |[(-> & ->)| ->]]; now left.
Qed.

Lemma run_base cd ops : forall w w' l start cs, Forall wf_op ops -> 0 < start -> cfg_ok (w_cfg w) -> binv start cs (w_base w) ->
  wrun cd ops w = (w', l) -> Z.of_nat (length (file w')) < 2 ^ 64 ->
  exists cs', binv start (cs ++ cs') (w_base w') /\ cfg_ok (w_cfg w') /\ fixed_parts (w_cfg w) (w_cfg w') /\
    (chunks_fit cd (c_hdr (w_cfg w)) ops -> cs' = chunks_of cd (c_hdr (w_cfg w)) l) /\
    (forall op n, In (op, Ok (Some n)) l -> exists x, chunk_of cd (c_hdr (w_cfg w)) op = Some (x, e_count (n_entry n)) /\ placed start (cs ++ cs') x n).
Proof.
  induction ops as [|op ops IH]; intros w w' l start cs WF S G I H L.
  { cbn [wrun] in H. injection H as <- <-. exists []. rewrite app_nil_r. split; [exact I|]. split; [exact G|]. split; [apply fixed_refl|].
    split; [reflexivity|]. intros op n []. }
  inversion WF as [|? ? W1 W2]; subst. cbn [wrun] in H. destruct (wstep cd op w) as (w1, r) eqn:E.
  pose proof (wstep_grows _ _ _ _ _ (proj1 I) E) as GR.
  assert (Rest : r <> UB -> exists l2, wrun cd ops w1 = (w', l2) /\ l = (op, r) :: l2).
  { intros N. destruct r; [| |congruence]; (destruct (wrun cd ops w1) as (w2, l2); injection H as <- <-; eauto). }
  assert (Stop : r = UB -> w' = w1 /\ l = [(op, UB)]) by (intros ->; injection H as <- <-; auto).
  destruct (match r with UB => true | _ => false end) eqn:U.
  - assert (r = UB) as -> by (destruct r; discriminate || reflexivity). destruct (Stop eq_refl) as (-> & ->).
    destruct (step_base _ _ _ _ _ _ _ W1 S G I E L) as (cs1 & B & G1 & X & T). exists cs1.
    split; [exact B|]. split; [exact G1|]. split; [exact X|]. split; [|intros op' n [[= <-]|[]]].
    intros FIT. destruct T as [-> |(x & n & C & Hx)]; [reflexivity|]. specialize (FIT op x n (or_introl eq_refl) C). lia.
  - destruct Rest as (l2 & R & ->); [now intros ->|].
    pose proof (wrun_grows _ _ _ _ _ (proj1 GR) R) as GR2. pose proof (grows_le _ _ GR2) as LE.
    destruct (step_base _ _ _ _ _ _ _ W1 S G I E ltac:(lia)) as (cs1 & B & G1 & X & T).
    destruct (IH _ _ _ _ _ W2 S G1 B R L) as (cs2 & B2 & G2 & X2 & C2 & P2).
    exists (cs1 ++ cs2). rewrite app_assoc. split; [exact B2|]. split; [exact G2|]. split; [exact (fixed_trans _ _ _ X X2)|]. split.
    + intros FIT. unfold chunks_of. cbn [flat_map].
      assert (F2 : chunks_fit cd (c_hdr (w_cfg w1)) ops).
      { intros o b n Hin Hc. rewrite (fixed_chunk _ _ _ _ X) in Hc. exact (FIT o b n (or_intror Hin) Hc). }
      rewrite (C2 F2). f_equal.
      * destruct r as [[n|]| |]; try (destruct T as [-> |(x & m & C & Hx)]; [reflexivity|specialize (FIT op x m (or_introl eq_refl) C); lia]).
        destruct T as (x & -> & C & _). rewrite C. reflexivity.
      * unfold chunks_of. apply flat_map_ext. intros (o, [[n|]| |]); try reflexivity. now rewrite (fixed_chunk _ _ _ _ X).
    + intros o n [[= <- ->]|Hin].
      * destruct T as (x & _ & C & PL). exists x. split; [exact C|]. now apply placed_app.
      * destruct (P2 o n Hin) as (x & C & PL). exists x. rewrite (fixed_chunk _ _ _ _ X) in C. now split.
Qed.
