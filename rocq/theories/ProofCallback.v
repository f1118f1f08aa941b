(* ProofCallback.v - transform_multithreaded with a callback *)
From Coq Require Import String Permutation.
Import List.
From Verif Require Import Base BaseFacts ModelFloat ModelKey ModelGeom ModelEntry ModelPoint ModelPoints ModelHeader ModelVlr ModelExtents ModelConfig
  ModelStream ModelWriter ModelReader ModelPickle ModelMp ModelCallback SpecKey SpecPoint SpecPoints SpecWriter SpecHier SpecReader SpecData SpecRound SpecMp SpecCallback
  ProofMp ProofMp2 ProofMp3 ProofMp5.

Definition erased {A K} (x : outcome (A * K)) : outcome A := match x with Ok b => Ok (fst b) | Throw => Throw | UB => UB end.
(* two loops, one of which also keeps something else *)
Section Erase.
Context {A K S1 S2 : Type}.
Variable task1 : node -> reader -> reader * outcome A.
Variable task2 : node -> reader -> reader * outcome (A * K).
Variable step1 : A -> S1 -> S1 * outcome unit.
Variable step2 : A * K -> S1 * S2 -> (S1 * S2) * outcome unit.
Variable Q : A * K -> Prop.
Variable good : outcome unit -> Prop.
Hypothesis T : forall n r, task1 n r = (fst (task2 n r), erased (snd (task2 n r))).
Hypothesis TQ : forall n r b, snd (task2 n r) = Ok b -> Q b.
Hypothesis G : good (Ok tt).
Hypothesis ST : forall b s s' o, Q b -> step2 b s = (s', o) -> good o -> step1 (fst b) (fst s) = (fst s', o).
Lemma erase_tasks ts : forall p, run_tasks task1 ts p = (fst (run_tasks task2 ts p), map erased (snd (run_tasks task2 ts p))).
Proof.
  induction ts as [|(i, n) ts IH]; intros p; [reflexivity|]. cbn [run_tasks]. rewrite T. destruct (task2 n (p i)) as (rd, o). cbn [fst snd]. rewrite IH. destruct (run_tasks task2 ts (pool_set i rd p)). reflexivity.
Qed.
Definition fine (x : outcome (A * K)) : Prop := forall b, x = Ok b -> Q b.
Lemma fine_tasks ts : forall p, Forall fine (snd (run_tasks task2 ts p)).
Proof.
  induction ts as [|(i, n) ts IH]; intros p; [constructor|]. cbn [run_tasks]. pose proof (TQ n (p i)) as X. destruct (task2 n (p i)) as (rd, o). specialize (IH (pool_set i rd p)). destruct (run_tasks task2 ts (pool_set i rd p)) as (p', os). cbn [snd] in *. constructor; [exact X|exact IH].
Qed.
Lemma erase_chunk p c p' seen : chunk_done task2 p c p' seen -> chunk_done task1 p c p' (map erased seen) /\ Forall fine seen.
Proof.
  intros (ts & res & P & R & P2). split.
  - exists ts, (map erased res). split; [exact P|]. rewrite erase_tasks, R. split; [reflexivity|]. now apply Permutation_map.
  - eapply Permutation_Forall; [exact P2|]. pose proof (fine_tasks ts p) as F. now rewrite R in F.
Qed.
Lemma chunk_from p c p' seen : chunk_done task1 p c p' seen -> exists seen2, chunk_done task2 p c p' seen2 /\ seen = map erased seen2 /\ Forall fine seen2.
Proof.
  intros (ts & res & P & R & P2). rewrite erase_tasks in R. destruct (run_tasks task2 ts p) as (q, os) eqn:E. cbn [fst snd] in R. apply pair_equal_spec in R as (<- & <-). apply perm_map_pre in P2 as (seen2 & P2 & ->).
  exists seen2. assert (C : chunk_done task2 p c q seen2) by (exists ts, os; auto). split; [exact C|]. split; [reflexivity|]. now apply erase_chunk in C.
Qed.
Lemma erase_consume : forall seen s s' o, Forall fine seen -> consume step2 seen s = (s', o) -> good o -> consume step1 (map erased seen) (fst s) = (fst s', o).
Proof.
  induction seen as [|x seen IH]; intros s s' o F H GO; cbn [consume map] in *; [apply pair_equal_spec in H as (<- & <-); reflexivity|]. pose proof (Forall_inv F) as F1. apply Forall_inv_tail in F.
  destruct x as [b| |]; cbn [erased consume]; [|apply pair_equal_spec in H as (<- & <-); reflexivity..]. specialize (F1 b eq_refl). destruct (step2 b s) as (s1, [[]| |]) eqn:E.
  - rewrite (ST b s s1 _ F1 E G). now apply IH.
  - apply pair_equal_spec in H as (<- & <-). now rewrite (ST b s s1 _ F1 E GO).
  - apply pair_equal_spec in H as (<- & <-). now rewrite (ST b s s1 _ F1 E GO).
Qed.
Lemma erase_run cs p s s' o : mp_run task2 step2 cs p s s' o -> good o -> mp_run task1 step1 cs p (fst s) (fst s') o.
Proof.
  intros H GO. induction H as [p s|c cs p p' seen s s1 s2 o CD CO R IH|c cs p p' seen s s1 o CD CO N].
  - constructor.
  - destruct (erase_chunk _ _ _ _ CD) as (CD' & F). econstructor; [exact CD'|now apply (erase_consume _ _ _ _ F CO)|now apply IH].
  - destruct (erase_chunk _ _ _ _ CD) as (CD' & F). eapply run_stop; [exact CD'|now apply (erase_consume _ _ _ _ F CO)|exact N].
Qed.
Lemma erase_loop od nodes res chunk r p s s' o : mp_loop task2 step2 od nodes res chunk r p s s' o -> good o -> mp_loop task1 step1 od nodes res chunk r p (fst s) (fst s') o.
Proof.
  intros (fuel & r' & sel & E & H) GO. exists fuel, r', sel. split; [exact E|]. destruct sel as [l| |]; [|destruct H as (-> & ->); auto..]. destruct (py_chunks chunk l) as [cs| |]; [now apply erase_run|destruct H as (-> & ->); auto..].
Qed.
(* and back *)
Hypothesis all_good : forall o, good o.
Lemma consume_from : forall seen s s1 o s2, Forall fine seen -> consume step1 (map erased seen) s = (s1, o) -> exists s2', consume step2 seen (s, s2) = ((s1, s2'), o).
Proof.
  induction seen as [|x seen IH]; intros s s1 o s2 F H; cbn [consume map] in *; [apply pair_equal_spec in H as (<- & <-); eauto|]. pose proof (Forall_inv F) as F1. apply Forall_inv_tail in F.
  destruct x as [b| |]; cbn [erased consume] in H; [|apply pair_equal_spec in H as (<- & <-); eauto..]. specialize (F1 b eq_refl). destruct (step2 b (s, s2)) as ((t1, t2), o2) eqn:E. pose proof (ST b (s, s2) _ _ F1 E (all_good o2)) as X. cbn [fst] in X. rewrite X in H.
  destruct o2 as [[]| |]; [now apply IH|apply pair_equal_spec in H as (<- & <-); eauto..].
Qed.
Lemma run_from cs p s s1 o : mp_run task1 step1 cs p s s1 o -> forall s2, exists s2', mp_run task2 step2 cs p (s, s2) (s1, s2') o.
Proof.
  intros H. induction H as [p s|c cs p p' seen s s1 s3 o CD CO R IH|c cs p p' seen s s1 o CD CO N]; intros s2.
  - exists s2. constructor.
  - destruct (chunk_from _ _ _ _ CD) as (seen2 & CD' & -> & F). destruct (consume_from _ _ _ _ s2 F CO) as (s2' & C2). destruct (IH s2') as (s2'' & R2). exists s2''. econstructor; eauto.
  - destruct (chunk_from _ _ _ _ CD) as (seen2 & CD' & -> & F). destruct (consume_from _ _ _ _ s2 F CO) as (s2' & C2). exists s2'. eapply run_stop; eauto.
Qed.
Lemma loop_from od nodes res chunk r p s s1 o s2 : mp_loop task1 step1 od nodes res chunk r p s s1 o -> exists s2', mp_loop task2 step2 od nodes res chunk r p (s, s2) (s1, s2') o.
Proof.
  intros (fuel & r' & sel & E & H). destruct sel as [l| |]; [|destruct H as (-> & ->); exists s2, fuel, r'; eexists; (split; [exact E|]); (split; reflexivity)..].
  destruct (py_chunks chunk l) as [cs| |] eqn:C.
  - destruct (run_from _ _ _ _ _ H s2) as (s2' & R). exists s2', fuel, r', (Ok l). split; [exact E|]. now rewrite C.
  - destruct H as (-> & ->). exists s2, fuel, r', (Ok l). split; [exact E|]. rewrite C. auto.
  - destruct H as (-> & ->). exists s2, fuel, r', (Ok l). split; [exact E|]. rewrite C. auto.
Qed.
End Erase.

(* ---- names ---- *)
Lemma has_name_false names l : has_name names l = false <-> forall a, In a l -> ~ In a names.
Proof.
  unfold has_name. split.
  - intros H a I J. assert (X : existsb (fun a => existsb (String.eqb a) names) l = true) by (apply existsb_exists; exists a; split; [exact I|]; apply existsb_exists; exists a; split; [exact J|apply String.eqb_refl]). congruence.
  - intros H. destruct (existsb _ l) eqn:E; [|reflexivity]. apply existsb_exists in E as (a & I & E). apply existsb_exists in E as (b & J & E). apply String.eqb_eq in E. subst b. destruct (H a I J).
Qed.
Lemma free_arguments_ok args : free_arguments args <-> has_name own_arguments args = false.
Proof.
  rewrite has_name_false. unfold free_arguments, own_arguments. split; intros H a I.
  - destruct (H a I) as (A & B & C & D). cbn [In]. intros [X|[X|[X|[X|[]]]]]; congruence.
  - specialize (H a I). cbn [In] in H. repeat split; intros X; apply H; subst a; auto.
Qed.
Lemma free_names_ok {V} (kw : list (string * V)) : free_names kw <-> has_name callback_arguments (map fst kw) = false.
Proof.
  rewrite has_name_false. unfold free_names, callback_arguments. split.
  - intros H a I. apply in_map_iff in I as ((b, v) & <- & I). destruct (H b v I) as (A & B & C). cbn [In fst]. intros [X|[X|[X|[]]]]; congruence.
  - intros H a v I. specialize (H a (in_map fst _ _ I)). cbn [In fst] in H. repeat split; intros X; apply H; subst a; auto.
Qed.

(* ---- the tasks ---- *)
Lemma job_erases {V} cd (tf : node_data -> node -> las_header -> outcome (returned V)) args upd h x n : has_name own_arguments args = false ->
  transform_job cd (points_only tf) upd h x n = erased (callback_job cd tf args upd h x n).
Proof.
  intros A. unfold callback_job. rewrite A. unfold transform_job at 1, points_only. destruct (tf x n h) as [[y|y kw|]| |]; cbn [bind erased]; try reflexivity.
  - destruct (transform_job cd _ upd h x n) as [d| |] eqn:E; unfold transform_job in E; cbn [bind] in E; rewrite E; reflexivity.
  - destruct (transform_job cd _ upd h x n) as [d| |] eqn:E; unfold transform_job in E; cbn [bind] in E; rewrite E; reflexivity.
Qed.
Lemma task_erases {V} cd (tf : node_data -> node -> las_header -> outcome (returned V)) args upd h : has_name own_arguments args = false -> forall n r,
  transform_task cd (points_only tf) upd h n r = (fst (callback_task cd tf args upd h n r), erased (snd (callback_task cd tf args upd h n r))).
Proof.
  intros A n r. unfold transform_task, callback_task. destruct (let! n := ship_node n in let! h := ship_header h in Ok (n, h)) as [(m, g)| |]; [|reflexivity..].
  destruct (get_points_node cd [] m r) as (q, [x| |]); [|reflexivity..]. cbn [fst snd]. now rewrite (job_erases cd tf args).
Qed.
Lemma callback_task_ok {V} cd (tf : node_data -> node -> las_header -> outcome (returned V)) args upd hw f hs h P r0 n : source cd f hs h P -> r_data r0 = f -> r_fail r0 = false -> c_hdr (r_cfg r0) = h -> picklable hw -> stored_nodes hs n ->
  callback_task cd tf args upd hw n r0 = (r0, callback_job cd tf args upd hw (loaded h (P n)) n).
Proof.
  intros S D F H PK N. unfold callback_task. rewrite (stored_ship f hs n (proj1 S) N). cbn [bind]. rewrite (ship_header_ok _ PK). cbn [bind]. now rewrite (stored_read cd f hs h P r0 n S D F H N).
Qed.
Lemma callback_job_brings {V} cd (tf : node_data -> node -> las_header -> outcome (returned V)) args upd hw x n ret y kw : 6 <= h_fmt hw <= 8 -> las_base (h_fmt hw) <= h_reclen hw < 65536 -> wf_entry (n_entry n) = true -> wf_key (n_page n) = true ->
  has_name own_arguments args = false -> tf x n hw = Ok ret -> returns_points ret y kw -> packable cd hw y ->
  exists d, callback_job cd tf args upd hw x n = Ok (d, kw) /\ dn_node d = n /\ dn_count d = Z.of_nat (length (c_pts (snd y))) /\ dn_data d = chunk_for cd hw y.
Proof.
  intros F R W1 W2 A E RP PK. destruct (job_succeeds cd (fun _ _ _ => Ok y) upd hw x n y F R W1 W2 eq_refl PK) as (d & J). exists d.
  destruct (job_brings cd (fun _ _ _ => Ok y) upd hw x n y d F R W1 W2 eq_refl J) as (B1 & B2 & (data & B3 & B4 & _) & _). split.
  - unfold callback_job. rewrite A, E. cbn [bind]. destruct RP as [(-> & ->)| ->]; now rewrite J.
  - split; [exact B1|]. split; [exact B2|]. unfold chunk_for. now rewrite B3.
Qed.
(* a callback, and the dictionaries it is given *)
Definition named {V St A} (cb : option (@callback V St)) (b : A * list (string * V)) : Prop := match cb with None => True | Some _ => has_name callback_arguments (map fst (snd b)) = false end.
Lemma step_erases {V St W} (add : done -> W -> W * outcome unit) (cb : option (@callback V St)) b s s' : store_and_call add cb b s = (s', Ok tt) -> store add (fst b) (fst s) = (fst s', Ok tt).
Proof.
  destruct b as (d, kw), s as (ws, st). unfold store_and_call. cbn [fst]. intros H. destruct cb as [f|].
  - destruct (has_name _ _); [discriminate H|]. destruct (f _ _ _ _ _) as (st1, [[]| |]); try discriminate H. destruct (store add d ws) as (ws1, o). apply pair_equal_spec in H as (<- & ->). reflexivity.
  - destruct (store add d ws) as (ws1, o). apply pair_equal_spec in H as (<- & ->). reflexivity.
Qed.
Lemma silent_step {V St W} (add : done -> W -> W * outcome unit) (cb : option (@callback V St)) : raises_nothing cb -> forall b s s' o, named cb b -> store_and_call add cb b s = (s', o) -> store add (fst b) (fst s) = (fst s', o).
Proof.
  intros C (d, kw) (ws, st) s' o N H. unfold store_and_call in H. cbn [fst]. destruct cb as [f|].
  - cbn [named snd] in N. rewrite N in H. destruct (C (dn_node d) (dn_count d) (dn_data d) kw st) as (st1 & E). rewrite E in H. destruct (store add d ws) as (ws1, o1). apply pair_equal_spec in H as (<- & <-). reflexivity.
  - destruct (store add d ws) as (ws1, o1). apply pair_equal_spec in H as (<- & <-). reflexivity.
Qed.

(* ---- what happens, node by node ---- *)
Section Steps.
Context {V St : Type}.
Variables (cd : codec) (cb : @callback V St) (hw : las_header) (T : node -> node_data) (K : node -> list (string * V)).
Variable D : node -> done * list (string * V).
Definition described (n : node) : Prop :=
  snd (D n) = K n /\ free_names (K n) /\ dn_node (fst (D n)) = n /\ dn_count (fst (D n)) = Z.of_nat (length (c_pts (snd (T n)))) /\ dn_data (fst (D n)) = chunk_for cd hw (T n) /\ Z.of_nat (length (c_pts (snd (T n)))) <= INT32_MAX.
Lemma step_of n w bs st : described n ->
  exists bs', store_and_call (add_to_copc cd) (Some cb) (D n) ((w, bs), st) =
    match call_for cd cb hw T K n st with
    | (st, Ok _) => let '(w, o) := add_for cd hw T n w in (((w, bs'), st), o)
    | (st, Throw) => (((w, bs), st), Throw)
    | (st, UB) => (((w, bs), st), UB)
    end.
Proof.
  intros (A & FN & B & C & E & I). destruct (D n) as (d, kw). cbn [fst snd] in *. subst kw. apply free_names_ok in FN. unfold store_and_call, call_for, add_for. rewrite FN, B, C, E.
  destruct (cb n _ _ (K n) st) as (st1, [u| |]); [|exists bs; reflexivity..]. unfold store. rewrite C. destruct (0 <? _); [|exists bs; reflexivity].
  exists (match dn_bounds d with Some b => bs ++ [b] | None => bs end). cbn [fst snd]. unfold add_to_copc. rewrite C. destruct (Z.ltb_spec INT32_MAX (Z.of_nat (length (c_pts (snd (T n)))))); [lia|]. rewrite B, E.
  destruct (add_node_compressed _ _ _ _ _ _) as (w1, [m| |]); reflexivity.
Qed.
Lemma steps_of : forall ns w bs st w1 bs1 st' o, Forall described ns -> each (store_and_call (add_to_copc cd) (Some cb)) (map D ns) ((w, bs), st) = (((w1, bs1), st'), o) ->
  exists before rest st1 w0, ns = before ++ rest /\ each (call_for cd cb hw T K) before st = (st1, Ok tt) /\ each (add_for cd hw T) before w = (w0, Ok tt) /\
    ((o = Ok tt /\ rest = [] /\ st' = st1 /\ w1 = w0) \/
     (exists n rest', rest = n :: rest' /\ o <> Ok tt /\ ((call_for cd cb hw T K n st1 = (st', o) /\ w1 = w0) \/ (call_for cd cb hw T K n st1 = (st', Ok tt) /\ add_for cd hw T n w0 = (w1, o))))).
Proof.
  induction ns as [|n ns IH]; intros w bs st w1 bs1 st' o F H.
  - cbn [map each] in H. apply pair_equal_spec in H as (H & <-). apply pair_equal_spec in H as (H & <-). apply pair_equal_spec in H as (<- & <-). exists [], [], st, w. auto 10.
  - pose proof (Forall_inv F) as F1. apply Forall_inv_tail in F. cbn [map each] in H. unfold then_ in H. destruct (step_of n w bs st F1) as (bs' & E). rewrite E in H. clear E.
    destruct (call_for cd cb hw T K n st) as (st1, [[]| |]) eqn:C.
    + destruct (add_for cd hw T n w) as (w2, [[]| |]) eqn:A.
      * destruct (IH _ _ _ _ _ _ _ F H) as (before & rest & st2 & w0 & -> & B1 & B2 & B3). exists (n :: before), rest, st2, w0. split; [reflexivity|]. cbn [each]. unfold then_. rewrite C, A. auto.
      * apply pair_equal_spec in H as (H & <-). apply pair_equal_spec in H as (H & <-). apply pair_equal_spec in H as (<- & _). exists [], (n :: ns), st, w. split; [reflexivity|]. split; [reflexivity|]. split; [reflexivity|]. right. exists n, ns. split; [reflexivity|]. split; [discriminate|]. right. auto.
      * apply pair_equal_spec in H as (H & <-). apply pair_equal_spec in H as (H & <-). apply pair_equal_spec in H as (<- & _). exists [], (n :: ns), st, w. split; [reflexivity|]. split; [reflexivity|]. split; [reflexivity|]. right. exists n, ns. split; [reflexivity|]. split; [discriminate|]. right. auto.
    + apply pair_equal_spec in H as (H & <-). apply pair_equal_spec in H as (H & <-). apply pair_equal_spec in H as (<- & _). exists [], (n :: ns), st, w. split; [reflexivity|]. split; [reflexivity|]. split; [reflexivity|]. right. exists n, ns. split; [reflexivity|]. split; [discriminate|]. left. auto.
    + apply pair_equal_spec in H as (H & <-). apply pair_equal_spec in H as (H & <-). apply pair_equal_spec in H as (<- & _). exists [], (n :: ns), st, w. split; [reflexivity|]. split; [reflexivity|]. split; [reflexivity|]. right. exists n, ns. split; [reflexivity|]. split; [discriminate|]. left. auto.
Qed.
End Steps.
