(* ProofSession.v - whole sessions: constructor, calls, Close *)
From Coq Require Import Permutation.
From Verif Require Import Base BaseFacts ModelFloat ModelKey ModelGeom ModelEntry ModelPoint ModelPoints ModelHeader ModelVlr ModelExtents ModelConfig
  ModelStream ModelWriter SpecKey SpecPoint SpecConfig SpecHeader SpecWriter SpecHier ProofKey ProofPoint ProofPoint2 ProofHeader ProofExtents ProofConfig
  ProofStream ProofWriter ProofWriter2 ProofWriter3 ProofWriter4 ProofTree ProofPages ProofClose ProofClose2.

(* what Close needs of the pages; true after every history *)
Definition pages_ok (w : writer) : Prop :=
  NoDup (map fst (w_pages w)) /\ all_valid (w_pages w) /\ In root_key (map fst (w_pages w)) /\ (forall p P, mget p (w_pages w) = Some P -> wp_subs P = []).

Lemma file_node_ok p k nd pages : valid p -> NoDup (map fst pages) /\ all_valid pages /\ In root_key (map fst pages) /\ (forall p P, mget p pages = Some P -> wp_subs P = []) ->
  NoDup (map fst (file_node p k nd pages)) /\ all_valid (file_node p k nd pages) /\ In root_key (map fst (file_node p k nd pages)) /\
  (forall q P, mget q (file_node p k nd pages) = Some P -> wp_subs P = []).
Proof.
  intros V (A & B & C & D). split; [now apply file_node_nodup|]. split; [|split].
  - intros q Q. apply mget_some_in in Q as (P & E). rewrite file_node_get in E. destruct (key_eqb_spec p q) as [<-|N]; [exact V|].
    apply B, mget_some_in. eauto.
  - apply mget_some_in. rewrite file_node_get. destruct (key_eqb p root_key); [eauto|]. now apply mget_some_in.
  - intros q P. rewrite file_node_get. destruct (key_eqb_spec p q) as [<-|N]; [|apply D]. intros [= <-]. cbn [wp_subs].
    destruct (mget p pages) as [P|] eqn:E; [exact (D _ _ E)|reflexivity].
Qed.
Lemma move_pages k page w w' r : change_node_page k page w = (w', r) -> pages_ok w -> pages_ok w'.
Proof.
  intros H OK. unfold change_node_page in H. destruct (negb (key_valid k)); [injection H as <- _; exact OK|].
  destruct (key_valid page) eqn:VP; cbn [negb] in H; [|injection H as <- _; exact OK]. apply key_valid_spec in VP.
  destruct (mget k (w_loaded w)) as [nd|]; [|injection H as <- _; exact OK]. destruct (negb (child_of k page)); [injection H as <- _; exact OK|].
  destruct (key_eqb (n_page nd) page); [injection H as <- _; exact OK|].
  change (mset page _ _) with (file_node page k nd (w_pages w)) in H.
  pose proof (file_node_ok page k nd (w_pages w) VP OK) as (A & B & C & D). set (pg := file_node page k nd (w_pages w)) in *. clearbody pg. clear OK.
  destruct (mget (n_page nd) pg) as [q|] eqn:EQ; apply (f_equal fst) in H; cbn [fst] in H; subst w'; unfold pages_ok; cbn [w_pages]; [|auto].
  set (q' := mkWP (wp_off q) (wp_size q) (mdel k (wp_nodes q)) (wp_subs q)).
  assert (OK2 : NoDup (map fst (mset (n_page nd) q' pg)) /\ all_valid (mset (n_page nd) q' pg) /\ In root_key (map fst (mset (n_page nd) q' pg)) /\
    (forall p P, mget p (mset (n_page nd) q' pg) = Some P -> wp_subs P = [])).
  { split; [now apply mset_nodup|]. split; [|split].
    - intros x X. apply mget_some_in in X as (P & E). rewrite mget_mset in E. apply B. apply mget_some_in. destruct (key_eqb_spec (n_page nd) x) as [<-|N]; eauto.
    - apply mget_some_in. rewrite mget_mset. destruct (key_eqb (n_page nd) root_key); [eauto|]. now apply mget_some_in.
    - intros p P. rewrite mget_mset. destruct (key_eqb (n_page nd) p); [|apply D]. intros [= <-]. exact (D _ _ EQ). }
  set (pg2 := mset (n_page nd) q' pg) in *. clearbody pg2.
  destruct (negb (key_eqb (n_page nd) root_key) && _) eqn:DEL; [|exact OK2].
  apply andb_prop in DEL as (NR & _). assert (NR' : n_page nd <> root_key) by (intros E; rewrite E, key_eqb_refl in NR; discriminate).
  destruct OK2 as (A2 & B2 & C2 & D2). split; [now apply mdel_nodup|]. split; [|split].
  - intros x X. apply mget_some_in in X as (P & E). rewrite mget_mdel in E. destruct (key_eqb (n_page nd) x); [discriminate|]. apply B2, mget_some_in. eauto.
  - apply mget_some_in. rewrite mget_mdel. destruct (key_eqb_spec (n_page nd) root_key); [congruence|]. now apply mget_some_in.
  - intros p P. rewrite mget_mdel. destruct (key_eqb (n_page nd) p); [discriminate|apply D2].
Qed.

Lemma step_pages cd op w w' r start cs : wf_op op -> 0 < start -> cfg_ok (w_cfg w) -> binv start cs (w_base w) ->
  wstep cd op w = (w', r) -> Z.of_nat (length (file w')) < 2 ^ 64 -> pages_ok w ->
  pages_ok w' /\ forall n, r = Ok (Some n) -> node_ok op n.
Proof.
  intros WF S G I H L OK. destruct (add_args op) as [(k, p)|] eqn:A.
  - destruct (add_args_wf _ _ _ A WF) as (K32 & P32).
    destruct (wstep_add _ _ _ _ _ _ _ _ _ A WF S G I H L) as [(-> & R)|(x & n & C & CO & N1 & N2 & N3 & B & F & T)].
    + split; [exact OK|]. intros n ->. destruct R; discriminate.
    + destruct T as [(Hx & -> & T1 & T2)|(Hx & -> & T1 & T2)].
      * split; [unfold pages_ok; now rewrite T2|discriminate].
      * split; [unfold pages_ok; rewrite T2; apply file_node_ok; [|exact OK]; eapply child_of_valid_r; eauto|].
        intros m [= <-]. exists k, p. cbn [e_key n_entry n_page e_count]. repeat (split; [assumption || reflexivity|]).
        destruct op; try discriminate A; try exact N3. cbn [chunk_of] in C. now injection C.
  - destruct (wstep_other _ _ _ _ _ A WF G H) as (F1 & F2 & _ & _ & R & F3). split.
    + destruct op as [| | |k page|h|i|slot e]; try discriminate A.
      * cbn [wstep] in H. destruct (change_node_page k page w) as (w1, r1) eqn:E. apply move_pages in E; [|exact OK].
        destruct r1; injection H as <- _; exact E.
      * unfold pages_ok. rewrite F3 by discriminate. exact OK.
      * unfold pages_ok. rewrite F3 by discriminate. exact OK.
      * unfold pages_ok. rewrite F3 by discriminate. exact OK.
    + intros n ->. destruct R as [|[(_ & ?)|]]; discriminate.
Qed.
Lemma run_pages cd ops : forall w w' l start cs, Forall wf_op ops -> 0 < start -> cfg_ok (w_cfg w) -> binv start cs (w_base w) ->
  wrun cd ops w = (w', l) -> Z.of_nat (length (file w')) < 2 ^ 64 -> pages_ok w ->
  pages_ok w' /\ forall op n, In (op, Ok (Some n)) l -> node_ok op n /\ In op ops.
Proof.
  induction ops as [|op ops IH]; intros w w' l start cs WF S G I H L OK.
  { cbn [wrun] in H. injection H as <- <-. split; [exact OK|]. intros op n []. }
  inversion WF as [|? ? W1 W2]; subst. cbn [wrun] in H. destruct (wstep cd op w) as (w1, r) eqn:E.
  pose proof (wstep_grows _ _ _ _ _ (proj1 I) E) as GR.
  assert (Rest : (w' = w1 /\ l = [(op, UB)]) \/ exists l2, wrun cd ops w1 = (w', l2) /\ l = (op, r) :: l2).
  { destruct r; [right|right|left]; [destruct (wrun cd ops w1) as (w2, l2); injection H as <- <-; eauto..|injection H as <- <-; auto]. }
  destruct Rest as [(-> & ->)|(l2 & R & ->)].
  { destruct (step_pages _ _ _ _ _ _ _ W1 S G I E L OK) as (OK1 & _). split; [exact OK1|]. intros o n [X|[]]. discriminate. }
  pose proof (wrun_grows _ _ _ _ _ (proj1 GR) R) as GR2. pose proof (grows_le _ _ GR2) as LE.
  destruct (step_base _ _ _ _ _ _ _ W1 S G I E ltac:(lia)) as (cs1 & B & G1 & X & _).
  destruct (step_pages _ _ _ _ _ _ _ W1 S G I E ltac:(lia) OK) as (OK1 & N1).
  destruct (IH _ _ _ _ _ W2 S G1 B R L OK1) as (OK2 & N2).
  split; [exact OK2|]. intros o n [[= <- ->]|Hin].
  - split; [now apply N1|now left].
  - destruct (N2 o n Hin). split; [assumption|now right].
Qed.
Lemma close_ge cd od w w' r : close cd od w = (w', r) -> (length (file w) <= length (file w'))%nat.
Proof.
  unfold close. destruct (negb _); [intros H; injection H as <- _; lia|]. destruct (copc_offset (w_cfg w)) as [ds| |]; [|intros H; injection H as <- _; lia..].
  change (length (file w)) with (blen (w_base w)). change (length (file w')) with (blen (w_base w')).
  destruct (write_chunk_table cd ds (w_base w)) as (b1, r1) eqn:E1. intros H.
  assert (L1 : (blen (w_base w) <= blen b1)%nat).
  { revert E1. unfold write_chunk_table. cbv zeta. set (b0 := with_out (seek_end (b_out (w_base w))) (w_base w)).
    assert (L0 : blen b0 = blen (w_base w)) by (unfold b0, blen; cbn [with_out b_out]; apply seek_end_len). set (rel := relative_chunks _ _).
    set (b2 := mkBW (put (enc_u32 0) (b_out b0)) _ _ _ _ _). assert (L2 : (blen b0 <= blen b2)%nat) by (unfold b2, blen at 2; cbn [b_out]; apply put_ge).
    clearbody b2 rel b0. destruct (UINT32_MAX <? _); intros E; apply (f_equal fst) in E; cbn [fst] in E; subst b1; [lia|].
    eapply Nat.le_trans; [|apply emit_ge]. unfold blen at 2. cbn [with_out b_out]. rewrite seek_to_len. fold (blen (emit (enc_u32 (Z.of_nat (length rel)) ++ cd_table cd rel) b2)).
    pose proof (emit_ge (enc_u32 (Z.of_nat (length rel)) ++ cd_table cd rel) b2). lia. }
  eapply Nat.le_trans; [exact L1|]. clear L1 E1.
  destruct r1 as [[]| |]; [|injection H as <- _; cbn; lia..]. revert H. cbv zeta. set (w2 := with_base _ w).
  assert (LW : blen (w_base w2) = blen b1) by (unfold w2, blen; cbn [with_base w_base b_out with_out]; now rewrite seek_end_len). clearbody w2.
  destruct (compute_hierarchy _ _) as [PG| |]; [|intros H; injection H as <- _; lia..].
  destruct (write_page_tree _ od root_key _) as (w3, r3) eqn:E3. apply tree_ge in E3. cbn [w_base] in E3.
  destruct r3 as [[]| |]; cbn [then_]; [|intros H; injection H as <- _; lia..].
  destruct (copc_write_header ds _) as (w4, r4) eqn:E4. apply copc_header_ge in E4. cbn [with_base w_base] in E4.
  pose proof (wkt_ge (c_wkt (w_cfg w3)) (w_base w3)).
  destruct r4 as [[]| |]; cbn [then_]; intros H4; apply (f_equal fst) in H4; cbn [fst] in H4; subst w'; cbn [with_base w_base]; unfold blen in *; cbn [b_out]; lia.
Qed.

(* the state before Close, after any history of defined calls *)
Record history (cd : codec) (c0 : config) (ops : list wop) (l : log) (w1 : writer) (cs : list (bytes * Z)) : Prop := {
  hs_cfg : cfg_ok (w_cfg w1); hs_fix : fixed_parts c0 (w_cfg w1); hs_start : data_start (w_cfg w1) = data_start c0;
  hs_base : binv (data_start c0 + 8) cs (w_base w1);
  hs_cs : chunks_fit cd (c_hdr c0) ops -> cs = chunks_of cd (c_hdr c0) l;
  hs_nodes : forall op n, In (op, Ok (Some n)) l -> node_ok op n /\ In op ops /\
    exists x, chunk_of cd (c_hdr c0) op = Some (x, e_count (n_entry n)) /\ placed (data_start c0 + 8) cs x n;
  hs_pages : pages_ok w1;
  hs_hier : all_defined l -> settled l -> hinv (view_of l) w1 }.
Lemma run_history cd c v c0 ops w0 w1 l : open_writer None c v = Ok w0 -> init_writer c v = Ok c0 -> ready c0 -> Forall wf_op ops ->
  wrun cd ops w0 = (w1, l) -> Z.of_nat (length (file w1)) < 2 ^ 64 -> exists cs, history cd c0 ops l w1 cs.
Proof.
  intros O E R WF H L. destruct (open_inv _ _ _ _ O E R) as (C & G & S & B & HI). rewrite <- C in G.
  assert (OK : pages_ok w0).
  { destruct HI as [_ I2 (P & I3) I4 _]. split; [exact I2|]. split; [|split].
    - intros q Q. apply mget_some_in in Q as (P' & Q). exact (proj1 (I4 _ _ Q)).
    - apply mget_some_in. eauto.
    - intros p P' Q. now apply (I4 _ _ Q). }
  destruct (run_base _ _ _ _ _ _ _ WF S G B H L) as (cs & B1 & G1 & F1 & CF & PL). cbn [app] in *.
  destruct (run_pages _ _ _ _ _ _ _ WF S G B H L OK) as (OK1 & NK). exists cs. rewrite C in *. constructor; auto.
  - now apply fixed_start.
  - intros op n Hin. destruct (NK _ _ Hin). auto.
  - intros AD ST. exact (proj1 (run_hier _ _ _ _ _ _ _ _ WF S ltac:(rewrite C; exact G) B HI H L AD ST)).
Qed.
(* Close of such a state either succeeds or throws for one of four reasons *)
Lemma close_history cd od c0 ops l w1 cs w r : reorders od -> history cd c0 ops l w1 cs -> close cd od w1 = (w, r) -> Z.of_nat (length (file w)) < 2 ^ 64 ->
  (r = Throw /\ (UINT32_MAX < Z.of_nat (length cs) \/ orphan w1 \/ (exists PG, compute_hierarchy (map fst (w_pages w1)) (w_pages w1) = Ok PG /\ oversize PG) \/ ~ ordered_bounds (c_hdr (w_cfg w1)))) \/
  (r = Ok tt /\ exists PG ws h, closed cd od w1 cs PG ws h w).
Proof.
  intros RO HS H L. destruct (hs_pages _ _ _ _ _ _ HS) as (A & B & C & D). eapply close_spec; eauto.
  - apply HS.
  - rewrite (hs_start _ _ _ _ _ _ HS). apply HS.
Qed.
Lemma session_closed cd od c v c0 ops l w : session cd od c v ops l w -> init_writer c v = Ok c0 -> ready c0 -> Forall wf_op ops -> reorders od ->
  Z.of_nat (length (file w)) < 2 ^ 64 ->
  exists w0 w1 cs PG ws h, open_writer None c v = Ok w0 /\ wrun cd ops w0 = (w1, l) /\ history cd c0 ops l w1 cs /\ closed cd od w1 cs PG ws h w.
Proof.
  intros (w0 & w1 & O & R & CL) E RD WF RO L. pose proof (close_ge _ _ _ _ _ CL) as GE.
  destruct (run_history _ _ _ _ _ _ _ _ O E RD WF R ltac:(lia)) as (cs & HS).
  destruct (close_history _ _ _ _ _ _ _ _ _ RO HS CL L) as [(X & _)|(_ & PG & ws & h & C)]; [discriminate|].
  exists w0, w1, cs, PG, ws, h. auto.
Qed.
