(* ProofReject.v - refused calls and their effects; calls after Close *)
From Verif Require Import BaseFacts ModelFloat ModelKey ModelGeom ModelEntry ModelPoint ModelPoints ModelHeader ModelVlr ModelExtents ModelConfig
  ModelStream ModelWriter SpecKey SpecPoint SpecHeader SpecConfig SpecWriter SpecReject SpecLaz ProofKey ProofPoint2 ProofStream ProofWriter ProofWriter2 ProofWriter3 ProofWriter4 ProofSession ProofClose2 ProofCount ProofResults ProofConfig ProofLaz.
Open Scope Z_scope.

Lemma valid_iff k : key_valid k = true <-> valid k.
Proof. unfold key_valid, valid. rewrite !andb_true_iff, !Z.leb_le. tauto. Qed.
Lemma bad_keys_cases k p : bad_keys k p -> key_valid p = false \/ key_valid k = false \/ child_of k p = false.
Proof.
  intros B. destruct (key_valid p) eqn:VP; [|auto]. destruct (key_valid k) eqn:VK; [|auto]. destruct (child_of k p) eqn:C; [|auto].
  apply child_of_iff in C as (A & A' & C). destruct B as [B|[B|B]]; contradiction.
Qed.
Lemma do_add_bad cd k data n comp p w : bad_keys k p -> do_add_node cd k data n comp p w = (w, Throw).
Proof.
  intros B. unfold do_add_node. apply bad_keys_cases in B as [B|[B|B]]; rewrite B; cbn [negb orb]; [reflexivity|now rewrite orb_true_r|].
  destruct (negb (key_valid p) || negb (key_valid k)); reflexivity.
Qed.
Lemma add_node_bad cd k data p w : h_reclen (c_hdr (w_cfg w)) <> 0 ->
  data = [] \/ Z.of_nat (length data) mod h_reclen (c_hdr (w_cfg w)) <> 0 \/ bad_keys k p -> add_node cd k data p w = (w, Throw).
Proof.
  intros R B. unfold add_node. cbv zeta. destruct data as [|x data]; [reflexivity|]. destruct B as [B|B]; [discriminate|].
  destruct (Z.eqb_spec (h_reclen (c_hdr (w_cfg w))) 0); [contradiction|].
  destruct (Z.eqb_spec (Z.of_nat (length (x :: data)) mod h_reclen (c_hdr (w_cfg w))) 0); cbn [negb]; [|reflexivity].
  destruct B as [B|B]; [contradiction|]. now apply do_add_bad.
Qed.
(* which keys a step can make known *)
Lemma step_loaded cd op w w' r k n : wstep cd op w = (w', r) -> mget k (w_loaded w') = Some n -> mget k (w_loaded w) = None ->
  exists m p, r = Ok (Some m) /\ add_keys op = Some (k, p).
Proof.
  assert (D : forall k' data c comp p w w' r, some_node (do_add_node cd k' data c comp p w) = (w', r) -> mget k (w_loaded w') = Some n -> mget k (w_loaded w) = None ->
    exists m, r = Ok (Some m) /\ k' = k).
  { clear. intros k' data c comp p w w' r H A B. unfold do_add_node in H. destruct (_ || _); [injection H as <- <-; congruence|].
    destruct (negb _); [injection H as <- <-; congruence|]. destruct (write_chunk _ _ _ _ _ _) as (b, [((off, size), m)| |]); cbn [some_node] in H;
      [|injection H as <- <-; cbn [with_base w_loaded] in A; congruence..].
    pose proof (f_equal snd H) as R. pose proof (f_equal fst H) as W. cbn [fst snd] in R, W. subst r w'. cbn [w_loaded] in A.
    eexists. split; [reflexivity|]. destruct (key_eqb_spec k' k) as [|N]; [assumption|]. rewrite mget_mset_other in A by assumption. congruence. }
  assert (D2 : forall k' data p, some_node (add_node cd k' data p w) = (w', r) -> mget k (w_loaded w') = Some n -> mget k (w_loaded w) = None -> exists m, r = Ok (Some m) /\ k' = k).
  { intros k' data p H A B. unfold add_node in H. cbv zeta in H. destruct data; [injection H as <- <-; congruence|].
    destruct (_ =? 0); [injection H as <- <-; congruence|]. destruct (negb _); [injection H as <- <-; congruence|]. eapply D; eauto. }
  destruct op as [k' data p|k' hp c p|k' data m p|k' p|h|i|slot e]; cbn [wstep add_keys]; intros H A B.
  - destruct (D2 _ _ _ H A B) as (m & E & ->). eauto.
  - unfold add_node_points in H. cbv zeta in H. destruct (c_pts c); [injection H as <- <-; congruence|]. destruct (_ || _); [injection H as <- <-; congruence|].
    destruct (points_pack _ _ _ _); [|injection H as <- <-; congruence..]. destruct (D2 _ _ _ H A B) as (m & E & ->). eauto.
  - unfold add_node_compressed in H. destruct (_ =? 0); [injection H as <- <-; congruence|]. destruct (D _ _ _ _ _ _ _ _ H A B) as (m' & E & ->). eauto.
  - exfalso. assert (L : w_loaded w' = w_loaded w); [|congruence]. unfold change_node_page in H. destruct (negb (key_valid k')); [now injection H as <- <-|].
    destruct (negb (key_valid p)); [now injection H as <- <-|]. destruct (mget k' _); [|now injection H as <- <-]. destruct (negb _); [now injection H as <- <-|].
    destruct (key_eqb _ _); [now injection H as <- <-|]. destruct (mget (n_page _) _); now injection H as <- <-.
  - exfalso. destruct (edit_header _ _); injection H as <- <-; cbn [with_cfg w_loaded] in A; congruence.
  - exfalso. injection H as <- <-; cbn [with_cfg w_loaded] in A; congruence.
  - exfalso. destruct (set_nth _ _ _); injection H as <- <-; cbn [with_cfg w_loaded] in A; congruence.
Qed.
Lemma run_loaded cd ops : forall w w' l k, wrun cd ops w = (w', l) -> mget k (w_loaded w) = None -> ~ added k l -> mget k (w_loaded w') = None.
Proof.
  induction ops as [|op ops IH]; intros w w' l k H N A; cbn [wrun] in H; [now injection H as <- <-|].
  destruct (wstep cd op w) as (w1, r) eqn:E.
  assert (N1 : (forall m, r = Ok (Some m) -> In (op, Ok (Some m)) l) -> mget k (w_loaded w1) = None).
  { intros I. destruct (mget k (w_loaded w1)) as [n|] eqn:M; [|reflexivity]. exfalso. destruct (step_loaded _ _ _ _ _ _ _ E M N) as (m & p & R & K).
    apply A. exists op, m, p. auto. }
  destruct r as [x| |].
  - destruct (wrun cd ops w1) as (w2, l2) eqn:R. injection H as <- <-. eapply IH; [exact R| |].
    + apply N1. intros m [= ->]. now left.
    + intros (op' & n & p & I & K). apply A. exists op', n, p. split; [now right|exact K].
  - destruct (wrun cd ops w1) as (w2, l2) eqn:R. injection H as <- <-. eapply IH; [exact R| |].
    + apply N1. discriminate.
    + intros (op' & n & p & I & K). apply A. exists op', n, p. split; [now right|exact K].
  - injection H as <- <-. apply N1. discriminate.
Qed.

(* a wrong call throws and does nothing *)
Lemma bad_call_throws cd c v c0 ops w0 w l op : init_writer c v = Ok c0 -> ready c0 -> Forall wf_op ops -> open_writer None c v = Ok w0 ->
  wrun cd ops w0 = (w, l) -> Z.of_nat (length (file w)) < 2 ^ 64 -> bad_call (c_hdr c0) l op -> wstep cd op w = (w, Throw).
Proof.
  intros E R WF O H L B. destruct (run_history _ _ _ _ _ _ _ _ O E R WF H L) as (cs & HS).
  pose proof (hs_cfg _ _ _ _ _ _ HS) as G. pose proof (hs_fix _ _ _ _ _ _ HS) as FX.
  assert (RL : h_reclen (c_hdr (w_cfg w)) <> 0).
  { destruct G as (_ & F & _ & _ & EB & RL & _ & _ & WE). rewrite RL. pose proof (eb_total_nonneg _ WE EB). assert (30 <= las_base (h_fmt (c_hdr (w_cfg w)))); [|lia].
    assert (C : h_fmt (c_hdr (w_cfg w)) = 6 \/ h_fmt (c_hdr (w_cfg w)) = 7 \/ h_fmt (c_hdr (w_cfg w)) = 8) by lia. destruct C as [C|[C|C]]; rewrite C; cbn; lia. }
  destruct FX as (F1 & F2 & F3 & F4 & _).
  destruct op as [k data p|k hp pc p|k data n p|k p| | |]; cbn [bad_call wstep] in *; [| | | |contradiction..].
  - rewrite add_node_bad; [reflexivity|exact RL|]. rewrite F2. exact B.
  - unfold add_node_points. cbv zeta. rewrite F1, F2, F3, F4. destruct (c_pts pc) as [|x t]; [reflexivity|]. destruct B as [B|B]; [discriminate|].
    destruct (Z.eqb_spec (c_fmt pc) (h_fmt (c_hdr c0))); cbn [negb orb]; [|reflexivity]. destruct (Z.eqb_spec (c_reclen pc) (h_reclen (c_hdr c0))); cbn [negb]; [|reflexivity].
    destruct B as [B|[B|(U & B)]]; [contradiction..|]. destruct (points_pack _ _ _ _) as [data| |] eqn:P; [|reflexivity|congruence].
    rewrite add_node_bad; [reflexivity|exact RL|auto].
  - unfold add_node_compressed. destruct (Z.eqb_spec n 0); [reflexivity|]. destruct B as [B|B]; [contradiction|]. rewrite do_add_bad by assumption. reflexivity.
  - unfold change_node_page. destruct B as [B|B].
    + apply bad_keys_cases in B as [B|[B|B]]; rewrite B; cbn [negb].
      * destruct (negb (key_valid k)); reflexivity.
      * reflexivity.
      * destruct (negb (key_valid k)); [reflexivity|]. destruct (negb (key_valid p)); [reflexivity|]. destruct (mget k (w_loaded w)); reflexivity.
    + rewrite (run_loaded _ _ _ _ _ k H); [|destruct (open_spec _ _ _ O) as (c1 & _ & _ & poff & _ & ->); reflexivity|exact B].
      destruct (negb (key_valid k)); [reflexivity|]. destruct (negb (key_valid p)); reflexivity.
Qed.

(* a call that throws without having written an oversize chunk changes nothing *)
Lemma throw_unchanged cd c v c0 ops w0 w l op w' : init_writer c v = Ok c0 -> ready c0 -> Forall wf_op ops -> wf_op op -> open_writer None c v = Ok w0 ->
  wrun cd ops w0 = (w, l) -> wstep cd op w = (w', Throw) -> Z.of_nat (length (file w')) < 2 ^ 64 ->
  (forall b n, chunk_of cd (c_hdr c0) op = Some (b, n) -> Z.of_nat (length b) <= INT32_MAX) -> w' = w.
Proof.
  intros E R WF W1 O H T L FIT.
  destruct (open_inv _ _ _ _ O E R) as (C & G0 & S & B & HI).
  assert (L1 : Z.of_nat (length (file w)) < 2 ^ 64).
  { pose proof (wrun_grows _ _ _ _ _ (proj1 B) H) as G1. pose proof (wstep_grows _ _ _ _ _ (proj1 G1) T) as G2. apply grows_le in G2. lia. }
  destruct (run_history _ _ _ _ _ _ _ _ O E R WF H L1) as (cs & HS).
  pose proof (hs_cfg _ _ _ _ _ _ HS) as G. pose proof (hs_fix _ _ _ _ _ _ HS) as FX. destruct (add_args op) as [(k, p)|] eqn:A.
  - destruct (wstep_add _ _ _ _ _ _ _ _ _ A W1 S G (hs_base _ _ _ _ _ _ HS) T L) as [(-> & _)|(x & m & CO & _ & _ & _ & _ & _ & _ & X)]; [reflexivity|].
    exfalso. destruct X as [(BIG & _)|(_ & X & _)]; [|discriminate]. rewrite (fixed_chunk _ _ _ _ FX) in CO. apply FIT in CO. lia.
  - destruct (wstep_other _ _ _ _ _ A W1 G T) as (_ & _ & _ & _ & X & _). destruct X as [X|[(X & _)|X]]; [discriminate|exact X|discriminate].
Qed.

(* so the rest of the session goes as if the call had not been made *)
Lemma wrun_app cd a b : forall w w1 l1, wrun cd a w = (w1, l1) -> Forall (fun x => snd x <> UB) l1 ->
  wrun cd (a ++ b) w = let '(w2, l2) := wrun cd b w1 in (w2, l1 ++ l2).
Proof.
  induction a as [|op a IH]; intros w w1 l1 H D; cbn [wrun app] in *.
  - injection H as <- <-. destruct (wrun cd b w). reflexivity.
  - destruct (wstep cd op w) as (w', r). destruct r as [x| |].
    + destruct (wrun cd a w') as (w2, l2) eqn:E. injection H as <- <-. inversion D; subst. rewrite (IH _ _ _ E) by assumption. destruct (wrun cd b w2). reflexivity.
    + destruct (wrun cd a w') as (w2, l2) eqn:E. injection H as <- <-. inversion D; subst. rewrite (IH _ _ _ E) by assumption. destruct (wrun cd b w2). reflexivity.
    + injection H as <- <-. inversion D. cbn [snd] in *. congruence.
Qed.
Lemma wrun_ops cd ops : forall w w' l, wrun cd ops w = (w', l) -> Forall (fun x => snd x <> UB) l -> map fst l = ops.
Proof.
  induction ops as [|op ops IH]; intros w w' l H D; cbn [wrun] in H; [now injection H as <- <-|]. destruct (wstep cd op w) as (w1, [x| |]).
  - destruct (wrun cd ops w1) as (w2, l2) eqn:E. injection H as <- <-. inversion D; subst. cbn [map fst]. f_equal. eauto.
  - destruct (wrun cd ops w1) as (w2, l2) eqn:E. injection H as <- <-. inversion D; subst. cbn [map fst]. f_equal. eauto.
  - injection H as <- <-. inversion D. cbn [snd] in *. congruence.
Qed.
Lemma without_rejected cd od c v c0 l1 op l2 w : complete_session cd od c v c0 (map fst (l1 ++ (op, Throw) :: l2)) (l1 ++ (op, Throw) :: l2) w ->
  (forall b n, chunk_of cd (c_hdr c0) op = Some (b, n) -> Z.of_nat (length b) <= INT32_MAX) ->
  complete_session cd od c v c0 (map fst (l1 ++ l2)) (l1 ++ l2) w.
Proof.
  intros ((w0 & w1 & O & R & CL) & E & RD & WF & RO & AD & L) FIT. pose proof (close_ge _ _ _ _ _ CL) as GE.
  destruct (wrun_split _ _ _ _ _ _ _ R) as (o1 & o2 & wm & wm' & EO & R1 & R2 & R3). cbn [fst snd] in *. specialize (R3 ltac:(discriminate)).
  unfold all_defined in AD. apply Forall_app in AD as (AD1 & AD2). inversion AD2 as [|? ? _ AD3]; subst.
  pose proof (wrun_ops _ _ _ _ _ R1 AD1) as <-. pose proof (wrun_ops _ _ _ _ _ R3 AD3) as <-.
  rewrite map_app in WF. apply Forall_app in WF as (WF1 & WF2). inversion WF2 as [|? ? W1 W2]; subst. cbn [fst] in W1.
  destruct (open_inv _ _ _ _ O E RD) as (C & G & S & B & HI).
  pose proof (wrun_grows _ _ _ _ _ (proj1 B) R1) as G1. pose proof (wstep_grows _ _ _ _ _ (proj1 G1) R2) as G2.
  pose proof (wrun_grows _ _ _ _ _ (proj1 G2) R3) as G3. apply grows_le in G2. apply grows_le in G3.
  assert (wm' = wm) as -> by (refine (throw_unchanged cd c v c0 _ _ _ _ op wm' E RD WF1 W1 O R1 R2 _ FIT); lia).
  unfold complete_session. split; [|split; [exact E|split; [exact RD|split; [|split; [exact RO|split; [|exact L]]]]]].
  - exists w0, w1. split; [exact O|]. split; [|exact CL]. rewrite map_app, (wrun_app _ _ _ _ _ _ R1 AD1), R3. reflexivity.
  - rewrite map_app. apply Forall_app. split; assumption.
  - apply Forall_app. split; assumption.
Qed.

(* ---- Close ---- *)
Lemma base_close_closed cd z b b' : base_close cd z b = (b', Ok tt) -> b_open b' = false.
Proof.
  unfold base_close. destruct (b_open b) eqn:O; cbn [negb]; [|intros [= <-]; exact O]. destruct (base_offset _ _); [|discriminate..].
  destruct (write_chunk_table _ _ _) as (b1, [?| |]); cbn [then_]; [|discriminate..]. destruct (base_write_header _ _ _) as (b2, [?| |]); cbn [then_]; [|discriminate..].
  intros [= <-]. reflexivity.
Qed.
Lemma close_closed cd od w w' : close cd od w = (w', Ok tt) -> b_open (w_base w') = false.
Proof.
  unfold close. destruct (b_open (w_base w)) eqn:O; cbn [negb]; [|intros [= <-]; exact O]. destruct (copc_offset _); [|discriminate..].
  destruct (write_chunk_table _ _ _) as (b1, [?| |]); [|discriminate..]. destruct (compute_hierarchy _ _); [|discriminate..].
  destruct (write_page_tree _ _ _ _) as (w1, [?| |]); cbn [then_]; [|discriminate..]. destruct (copc_write_header _ _) as (w2, [?| |]); cbn [then_]; [|discriminate..].
  intros H. apply (f_equal fst) in H. cbn [fst] in H. subst w'. reflexivity.
Qed.
Lemma close_idempotent cd od od' w w' : close cd od w = (w', Ok tt) -> close cd od' w' = (w', Ok tt).
Proof. intros H. apply close_closed in H. unfold close at 1. rewrite H. reflexivity. Qed.
Lemma close_laz_idempotent cd w w' : close_laz cd w = (w', Ok tt) -> close_laz cd w' = (w', Ok tt).
Proof.
  unfold close_laz. destruct (base_close cd (lw_cfg w) (lw_base w)) as (b, r) eqn:E. intros [= <- ->]. apply base_close_closed in E. cbn [lw_base lw_cfg].
  unfold base_close. rewrite E. reflexivity.
Qed.
(* calls other than AddNode never touch the file *)
Lemma other_keeps cd op w w' r : add_keys op = None -> wstep cd op w = (w', r) -> file w' = file w.
Proof.
  destruct op as [| | |k page|h|i|slot e]; try discriminate; cbn [wstep]; intros _ H.
  - unfold change_node_page in H. destruct (negb (key_valid k)); [now injection H as <- <-|].
    destruct (negb (key_valid page)); [now injection H as <- <-|]. destruct (mget k _); [|now injection H as <- <-]. destruct (negb _); [now injection H as <- <-|].
    destruct (key_eqb _ _); [now injection H as <- <-|]. destruct (mget (n_page _) _); now injection H as <- <-.
  - destruct (edit_header _ _); now injection H as <- <-.
  - now injection H as <- <-.
  - destruct (set_nth _ _ _); now injection H as <- <-.
Qed.

(* ---- failing streams ---- *)
Lemma tell_bad s : o_bad s = true -> tell64 s = 2 ^ 64 - 1.
Proof. unfold tell64. intros ->. reflexivity. Qed.
Lemma put_bad x s : o_bad s = true -> put x s = s.
Proof. unfold put. now intros ->. Qed.
(* a failed stream goes unnoticed by AddNodeCompressed *)
Lemma failed_add_accepted cd k data n p w : o_bad (b_out (w_base w)) = true -> n <> 0 -> valid k -> valid p -> inside k p ->
  exists w' nd, wstep cd (WAddCompressed k data n p) w = (w', Ok (Some nd)) /\ file w' = file w /\ e_size (n_entry nd) = 0 /\ e_offset (n_entry nd) = 2 ^ 64 - 1.
Proof.
  intros B N VK VP I. cbn [wstep]. unfold add_node_compressed. destruct (Z.eqb_spec n 0); [contradiction|]. unfold do_add_node.
  assert (C : child_of k p = true) by (apply child_of_iff; auto). apply valid_iff in VK, VP. rewrite VK, VP, C. cbn [negb orb].
  unfold write_chunk. rewrite (tell_bad _ B), (put_bad _ _ B), (tell_bad _ B). cbv zeta beta. change (2 ^ 64 - 1 <=? 0) with false. change (to_u 64 (2 ^ 64 - 1 - (2 ^ 64 - 1))) with 0.
  change (INT32_MAX <? 0) with false. cbv iota. cbn [some_node]. eexists _, _. split; [reflexivity|]. cbn. auto.
Qed.
(* Close does notice *)
Lemma close_good_stream cd od w w' : b_open (w_base w) = true -> cfg_ok (w_cfg w) -> close cd od w = (w', Ok tt) -> o_bad (b_out (w_base w')) = false.
Proof.
  intros O G H. unfold close in H. rewrite O in H. cbn [negb] in H. destruct (copc_offset_ok _ G) as (P & B). rewrite P in H.
  destruct (write_chunk_table _ _ _) as (b1, [?| |]); [|discriminate..]. destruct (compute_hierarchy _ _); [|discriminate..].
  destruct (write_page_tree _ _ _ _) as (w1, [?| |]); cbn [then_] in H; [|discriminate..]. destruct (copc_write_header _ _) as (w2, [?| |]) eqn:E; cbn [then_] in H; [|discriminate..].
  apply (f_equal fst) in H. cbn [fst] in H. subst w'. cbn [w_base with_base b_out].
  unfold copc_write_header in E. destruct (write_las_header _ _ _ _) as (b2, [?| |]); [|discriminate..]. destruct (copc_vlrs _); [|discriminate..].
  destruct (_ <? _) eqn:LT; [discriminate|]. apply (f_equal fst) in E. cbn [fst] in E. subst w2. cbn [w_base with_base] in *.
  match goal with |- o_bad ?s = false => destruct (o_bad s) eqn:BAD; [|reflexivity] end. rewrite (tell_bad _ BAD) in LT. apply Z.ltb_ge in LT. lia.
Qed.

(* a failed stream stays failed *)
Definition failed (b : bwriter) : Prop := o_bad (b_out b) = true.
Lemma seek_end_bad s : o_bad s = true -> seek_end s = s. Proof. unfold seek_end. now intros ->. Qed.
Lemma seek_to_bad p s : o_bad s = true -> seek_to p s = s. Proof. unfold seek_to. now intros ->. Qed.
Lemma emit_failed x b : failed b -> failed (emit x b).
Proof. unfold failed, emit, with_out. cbn [b_out]. intros B. now rewrite put_bad. Qed.
Lemma chunk_failed cd h data n comp b b' r : write_chunk cd h data n comp b = (b', r) -> failed b -> failed b'.
Proof.
  unfold write_chunk. cbv zeta. intros H B. destruct (_ <=? 0); [now injection H as <- _|].
  destruct (if comp then _ else _) as [(x, m)| |]; [|now injection H as <- _..].
  rewrite (put_bad _ _ B) in H. destruct (_ <=? 0); [now injection H as <- _|]. destruct (INT32_MAX <? _); now injection H as <- _.
Qed.
Lemma step_failed cd op w w' r : wstep cd op w = (w', r) -> failed (w_base w) -> failed (w_base w').
Proof.
  assert (D : forall k data n comp p w' r, some_node (do_add_node cd k data n comp p w) = (w', r) -> failed (w_base w) -> failed (w_base w')).
  { clear. intros k data n comp p w' r H B. apply some_node_inv in H as (-> & _). unfold do_add_node. destruct (_ || _); [exact B|]. destruct (negb _); [exact B|].
    destruct (write_chunk _ _ _ _ _ _) as (b, [((off, size), m)| |]) eqn:E; cbn [fst w_base with_base]; eapply chunk_failed; eauto. }
  assert (A : forall k data p w' r, some_node (add_node cd k data p w) = (w', r) -> failed (w_base w) -> failed (w_base w')).
  { intros k data p w'' r' H B. unfold add_node in H. cbv zeta in H. destruct data; [now injection H as <- _|]. destruct (_ =? 0); [now injection H as <- _|].
    destruct (negb _); [now injection H as <- _|]. eapply D; eauto. }
  destruct op as [k data p|k hp c p|k data n p|k p|h|i|slot e]; cbn [wstep]; intros H B.
  - eapply A; eauto.
  - unfold add_node_points in H. cbv zeta in H. destruct (c_pts c); [now injection H as <- _|]. destruct (_ || _); [now injection H as <- _|].
    destruct (points_pack _ _ _ _); [eapply A; eauto|now injection H as <- _..].
  - unfold add_node_compressed in H. destruct (_ =? 0); [now injection H as <- _|]. eapply D; eauto.
  - unfold change_node_page in H. destruct (negb (key_valid k)); [now injection H as <- _|].
    destruct (negb (key_valid p)); [now injection H as <- _|]. destruct (mget k _); [|now injection H as <- _]. destruct (negb _); [now injection H as <- _|].
    destruct (key_eqb _ _); [now injection H as <- _|]. destruct (mget (n_page _) _); now injection H as <- _.
  - destruct (edit_header _ _); now injection H as <- _.
  - now injection H as <- _.
  - destruct (set_nth _ _ _); now injection H as <- _.
Qed.
Lemma table_failed cd poff b b' r : write_chunk_table cd poff b = (b', r) -> failed b -> failed b'.
Proof.
  unfold write_chunk_table, failed. cbv zeta. intros H B. apply (f_equal fst) in H. cbn [with_out b_out b_open b_chunks b_points b_evoff b_evcnt] in H.
  rewrite (seek_end_bad _ B), (put_bad _ _ B) in H. destruct (_ <? _); cbn [fst] in H; subst b'; [exact B|]. unfold emit. cbn [with_out b_out].
  rewrite (put_bad _ _ B), (seek_to_bad _ _ B), (put_bad _ _ B). exact B.
Qed.
Lemma page_failed od k w w' r : write_page od k w = (w', r) -> failed (w_base w) -> failed (w_base w').
Proof.
  unfold write_page. cbv zeta. intros H B. destruct (mget k (w_pages w)) as [p|]; [|now injection H as <- _].
  set (b := emit _ _) in H. assert (B' : failed b).
  { unfold b. apply emit_failed. unfold failed, with_out. cbn [b_out]. rewrite seek_end_bad; assumption. }
  clearbody b. destruct (INT32_MAX <? _); [apply (f_equal fst) in H; cbn [fst] in H; subst w'; exact B'|].
  apply (f_equal fst) in H. cbn [fst] in H. subst w'. destruct (key_eqb k root_key); cbn [w_base with_base with_cfg]; now apply emit_failed.
Qed.
Lemma each_failed {X} (f : X -> writer -> writer * outcome unit) l : (forall a w w' r, f a w = (w', r) -> failed (w_base w) -> failed (w_base w')) ->
  forall w w' r, each f l w = (w', r) -> failed (w_base w) -> failed (w_base w').
Proof.
  intros F. induction l as [|a l IH]; intros w w' r H B; cbn [each] in H; [now injection H as <- _|].
  destruct (f a w) as (w1, [?| |]) eqn:E; cbn [then_] in H; [|injection H as <- _; eauto..]. eauto.
Qed.
Lemma tree_failed od : forall n k w w' r, write_page_tree n od k w = (w', r) -> failed (w_base w) -> failed (w_base w').
Proof.
  induction n as [|n IH]; intros k w w' r H B; cbn [write_page_tree] in H; [now injection H as <- _|]. destruct (mget k _); [|now injection H as <- _].
  destruct (each _ _ w) as (w1, [?| |]) eqn:E; cbn [then_] in H; pose proof (each_failed _ _ IH _ _ _ E B); [|injection H as <- _; assumption..]. eapply page_failed; eauto.
Qed.
Lemma las_header_failed h poff ext b b' r : write_las_header h poff ext b = (b', r) -> failed b -> failed b'.
Proof.
  unfold write_las_header. intros H B. destruct (let! eb := _ in _); [|now injection H as <- _..]. injection H as <- _. apply emit_failed.
  unfold failed, with_out. cbn [b_out]. rewrite seek_to_bad; assumption.
Qed.
Lemma wkt_failed wkt b : failed b -> failed (write_wkt wkt b).
Proof. unfold write_wkt. intros B. destruct wkt; [exact B|]. apply emit_failed. exact B. Qed.
Lemma failed_close cd od w w' r : failed (w_base w) -> b_open (w_base w) = true -> cfg_ok (w_cfg w) -> close cd od w = (w', r) -> r <> Ok tt.
Proof.
  intros B O G H ->. pose proof (close_good_stream _ _ _ _ O G H) as X. unfold close in H. rewrite O in H. cbn [negb] in H.
  destruct (copc_offset _); [|discriminate..]. destruct (write_chunk_table _ _ _) as (b1, [?| |]) eqn:E1; [|discriminate..].
  apply table_failed in E1; [|exact B]. destruct (compute_hierarchy _ _); [|discriminate..].
  destruct (write_page_tree _ _ _ _) as (w1, [?| |]) eqn:E2; cbn [then_] in H; [|discriminate..].
  apply tree_failed in E2; [|unfold failed; cbn [w_base with_base b_out with_out]; now rewrite seek_end_bad].
  destruct (copc_write_header _ _) as (w2, [?| |]) eqn:E3; cbn [then_] in H; [|discriminate..].
  assert (B3 : failed (w_base w2)).
  { unfold copc_write_header in E3. destruct (write_las_header _ _ _ _) as (b2, [?| |]) eqn:E4; apply las_header_failed in E4; try (cbn [w_base with_base]; now apply wkt_failed); [|discriminate..].
    destruct (copc_vlrs _); [|discriminate..]. destruct (_ <? _); [discriminate|]. apply (f_equal fst) in E3. cbn [fst] in E3. subst w2. cbn [w_base with_base]. now apply emit_failed. }
  apply (f_equal fst) in H. cbn [fst] in H. subst w'. cbn [w_base with_base b_out] in X. unfold failed in B3. congruence.
Qed.

(* the failure itself shows as an oversize chunk *)
Lemma chunk_first_failure cd h data n comp b b' r : write_chunk cd h data n comp b = (b', r) -> o_bad (b_out b) = false -> o_bad (b_out b') = true ->
  Z.of_nat (o_pos (b_out b)) < 2 ^ 63 -> r = Throw.
Proof.
  unfold write_chunk. cbv zeta. intros H G B P. destruct (tell64 (b_out b) <=? 0); [injection H as <- _; congruence|].
  destruct (if comp then _ else _) as [(x, m)| |]; [|injection H as <- _; congruence..].
  destruct (_ <=? 0); [now injection H as _ <-|].
  destruct (INT32_MAX <? _) eqn:E; [now injection H as _ <-|]. exfalso. injection H as <- _. cbn [b_out] in B. apply Z.ltb_ge in E.
  rewrite (tell_bad _ B) in E. unfold tell64 in E. rewrite G in E. unfold to_u, INT32_MAX in E. rewrite (Z.mod_small (Z.of_nat _)) in E by lia. rewrite Z.mod_small in E by lia. lia.
Qed.
Lemma first_failure cd op w w' r : wstep cd op w = (w', r) -> o_bad (b_out (w_base w)) = false -> o_bad (b_out (w_base w')) = true ->
  Z.of_nat (o_pos (b_out (w_base w))) < 2 ^ 63 -> r = Throw.
Proof.
  intros H G B P.
  assert (D : forall k data n comp p, some_node (do_add_node cd k data n comp p w) = (w', r) -> r = Throw).
  { intros k data n comp p X. apply some_node_inv in X as (X & ->). revert X. unfold do_add_node. destruct (_ || _); [reflexivity|]. destruct (negb _); [reflexivity|].
    destruct (write_chunk _ _ _ _ _ _) as (b, o) eqn:E. intros X. assert (XB : w_base w' = b) by (destruct o as [((?, ?), ?)| |]; cbn [fst] in X; now subst w').
    rewrite XB in B. pose proof (chunk_first_failure _ _ _ _ _ _ _ _ E G B P) as ->. reflexivity. }
  assert (A : forall k data p, some_node (add_node cd k data p w) = (w', r) -> r = Throw).
  { intros k data p X. unfold add_node in X. cbv zeta in X. destruct data; [now injection X as _ <-|]. destruct (_ =? 0); [injection X as <- _; congruence|].
    destruct (negb _); [now injection X as _ <-|]. eapply D; eauto. }
  assert (N : w_base w' = w_base w -> r = Throw) by (intros X; rewrite X in B; congruence).
  destruct op as [k data p|k hp c p|k data n p|k p|h|i|slot e]; cbn [wstep] in H.
  - eapply A; eauto.
  - unfold add_node_points in H. cbv zeta in H. destruct (c_pts c); [now injection H as _ <-|]. destruct (_ || _); [now injection H as _ <-|].
    destruct (points_pack _ _ _ _); [eapply A; eauto|now injection H as _ <-|injection H as <- _; now apply N].
  - unfold add_node_compressed in H. destruct (_ =? 0); [now injection H as _ <-|]. eapply D; eauto.
  - apply N. unfold change_node_page in H. destruct (negb (key_valid k)); [now injection H as <- _|].
    destruct (negb (key_valid p)); [now injection H as <- _|]. destruct (mget k _); [|now injection H as <- _]. destruct (negb _); [now injection H as <- _|].
    destruct (key_eqb _ _); [now injection H as <- _|]. destruct (mget (n_page _) _); now injection H as <- _.
  - apply N. destruct (edit_header _ _); now injection H as <- _.
  - apply N. now injection H as <- _.
  - apply N. destruct (set_nth _ _ _); now injection H as <- _.
Qed.
