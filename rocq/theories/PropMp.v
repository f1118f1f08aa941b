(* PropMp.v - property theorem C57: reading with a process pool *)
From Coq Require Import Permutation String.
Import List.
From Verif Require Import Base BaseFacts ModelFloat ModelKey ModelGeom ModelEntry ModelPoint ModelPoints ModelHeader ModelVlr ModelExtents ModelConfig
  ModelStream ModelWriter ModelReader ModelPickle ModelMp SpecKey SpecPoint SpecWriter SpecHier SpecFile SpecReader SpecData SpecMp
  ProofKey ProofPickle ProofData ProofReader4 ProofReader6 ProofOpen ProofMp ProofMp2 SampleWriter SampleReader PropReader PropData.
Open Scope Z_scope.

(* ---- C57: chunks ---- *)
Theorem C57_chunks : forall {A} n (l : list A), 0 < n -> exists cs, py_chunks n l = Ok cs /\ cut_into n l cs.
Proof. intros A n l N. now apply py_chunks_pos. Qed.
Print Assumptions C57_chunks.
Theorem C57_zero_chunk_throws : forall {A} (l : list A), py_chunks 0 l = Throw.
Proof. reflexivity. Qed.
Print Assumptions C57_zero_chunk_throws.

(* ---- C57: the callback ---- *)
Theorem C57_visits_once : forall {R St} cd f hs h P (rf : node_data -> node -> outcome R) (callback : node * R -> St -> St * outcome unit) V od nodes res chunk r p l s s' o,
  source cd f hs h P -> fresh_pool f p -> selects od nodes res r l -> Forall (stored_nodes hs) l -> 0 < chunk ->
  (forall n, In n l -> rf (loaded h (P n)) n = Ok (V n)) ->
  read_mt cd rf callback od nodes res chunk r p s s' o ->
  exists calls rest, Permutation (map (fun n => (n, V n)) l) (calls ++ rest) /\ each callback calls s = (s', o) /\ (o = Ok tt -> rest = []).
Proof.
  intros R St cd f hs h P rf cb V od nodes res chunk r p l s s' o SR FP SL F N VV H. destruct (pool_reader cd f hs h P p SR FP) as (r0 & SP & D & RF & CH).
  eapply (loop_visits (read_task cd rf) cb r0 (stored_nodes hs) (fun n => let! v := rf (loaded h (P n)) n in Ok (n, v))); try eassumption.
  - intros n I. now apply (read_task_ok cd rf f hs).
  - intros n I. now rewrite VV.
Qed.
Print Assumptions C57_visits_once.
(* the results of a chunk are handed over before those of the next *)
Theorem C57_chunk_by_chunk : forall {R St} cd f hs h P (rf : node_data -> node -> outcome R) (callback : node * R -> St -> St * outcome unit) V od nodes res chunk r p l s s',
  source cd f hs h P -> fresh_pool f p -> selects od nodes res r l -> Forall (stored_nodes hs) l -> 0 < chunk ->
  (forall n, In n l -> rf (loaded h (P n)) n = Ok (V n)) ->
  read_mt cd rf callback od nodes res chunk r p s s' (Ok tt) ->
  exists cs segs, cut_into chunk l cs /\ Forall2 (fun c calls => Permutation (map (fun n => (n, V n)) c) calls) cs segs /\ each callback (concat segs) s = (s', Ok tt).
Proof.
  intros R St cd f hs h P rf cb V od nodes res chunk r p l s s' SR FP SL F N VV H. destruct (pool_reader cd f hs h P p SR FP) as (r0 & SP & D & RF & CH).
  assert (Q : forall n, stored_nodes hs n -> read_task cd rf n r0 = (r0, let! v := rf (loaded h (P n)) n in Ok (n, v))) by (intros n I; now apply (read_task_ok cd rf f hs)).
  destruct (loop_visits (read_task cd rf) cb r0 (stored_nodes hs) (fun n => let! v := rf (loaded h (P n)) n in Ok (n, v)) Q (fun n => (n, V n)) od nodes res chunk r p s s' (Ok tt) l SP F) as (_ & X); auto.
  intros n I. now rewrite VV.
Qed.
Print Assumptions C57_chunk_by_chunk.
(* every order of the results within the chunks is a possible run *)
Theorem C57_any_order : forall {R St} cd f hs h P (rf : node_data -> node -> outcome R) (callback : node * R -> St -> St * outcome unit) V od nodes res chunk r p l s s' cs segs,
  source cd f hs h P -> fresh_pool f p -> selects od nodes res r l -> Forall (stored_nodes hs) l -> 0 < chunk ->
  (forall n, In n l -> rf (loaded h (P n)) n = Ok (V n)) ->
  py_chunks chunk l = Ok cs -> Forall2 (fun c calls => Permutation (map (fun n => (n, V n)) c) calls) cs segs -> each callback (concat segs) s = (s', Ok tt) ->
  read_mt cd rf callback od nodes res chunk r p s s' (Ok tt).
Proof.
  intros R St cd f hs h P rf cb V od nodes res chunk r p l s s' cs segs SR FP SL F N VV C G E. destruct (pool_reader cd f hs h P p SR FP) as (r0 & SP & D & RF & CH).
  assert (Q : forall n, stored_nodes hs n -> read_task cd rf n r0 = (r0, let! v := rf (loaded h (P n)) n in Ok (n, v))) by (intros n I; now apply (read_task_ok cd rf f hs)).
  refine (loop_order (read_task cd rf) cb r0 (stored_nodes hs) _ Q (fun n => (n, V n)) od nodes res chunk r p s s' l cs segs SP F _ SL C _ G E).
  - intros n I. now rewrite VV.
  - destruct (py_chunks_pos chunk l N) as (cs' & C' & X & _). congruence.
Qed.
Print Assumptions C57_any_order.
(* an exception of the read function is not lost *)
Theorem C57_exceptions : forall {R St} cd f hs h P (rf : node_data -> node -> outcome R) (callback : node * R -> St -> St * outcome unit) od nodes res chunk r p l s s' o,
  source cd f hs h P -> fresh_pool f p -> selects od nodes res r l -> Forall (stored_nodes hs) l -> 0 < chunk ->
  (exists n, In n l /\ rf (loaded h (P n)) n = Throw) -> (forall n, In n l -> rf (loaded h (P n)) n <> UB) -> (forall x s, snd (callback x s) <> UB) ->
  read_mt cd rf callback od nodes res chunk r p s s' o -> o = Throw.
Proof.
  intros R St cd f hs h P rf cb od nodes res chunk r p l s s' o SR FP SL F N (n & I & TH) NU CU H. destruct (pool_reader cd f hs h P p SR FP) as (r0 & SP & D & RF & CH).
  assert (Q : forall n, stored_nodes hs n -> read_task cd rf n r0 = (r0, let! v := rf (loaded h (P n)) n in Ok (n, v))) by (intros m M; now apply (read_task_ok cd rf f hs)).
  refine (loop_throws (read_task cd rf) cb r0 (stored_nodes hs) _ Q od nodes res chunk r p s s' o l SP F _ _ CU SL N H).
  - exists n. split; [exact I|]. now rewrite TH.
  - intros m M. specialize (NU m M). cbv beta. destruct (rf (loaded h (P m)) m); cbn [bind]; [discriminate|discriminate|contradiction].
Qed.
Print Assumptions C57_exceptions.
Theorem C57_bad_arguments : forall {R St} cd (rf : node_data -> node -> outcome R) (callback : node * R -> St -> St * outcome unit) od l res chunk r p s s' o,
  (fgt res (f64_of_Z (-1)) = true \/ chunk = 0) -> read_mt cd rf callback od (Some l) res chunk r p s s' o -> s' = s /\ o = Throw.
Proof.
  intros R St cd rf cb od l res chunk r p s s' o B (fuel & r' & sel & E & H). unfold mp_select in E. destruct (fgt res (f64_of_Z (-1))); injection E as <- <-; [exact H|].
  destruct B as [B| ->]; [discriminate|]. exact H.
Qed.
Print Assumptions C57_bad_arguments.
(* without 'nodes': the nodes of the file, all of them or down to the depth of the resolution *)
Theorem C57_all_nodes : forall f hs od r res, copc_pages f hs -> Z.of_nat (length f) < 2 ^ 63 -> visits_all od -> reader_on f r -> fgt res (f64_of_Z (-1)) = false ->
  exists l, selects od None res r l /\ exactly l (stored_nodes hs).
Proof.
  intros f hs od r res S L V R G. destruct (all_nodes_good f _ _ hs S L od r V (on_good f hs r S L R)) as (r' & l & A & _ & _ & X & _). exists l. split; [|exact X].
  exists r'. destruct A as (m & A). exists m. intros k K. unfold mp_select. rewrite G. now apply A.
Qed.
Print Assumptions C57_all_nodes.
Theorem C57_nodes_of_resolution : forall f hs od r res r1 d, copc_pages f hs -> Z.of_nat (length f) < 2 ^ 63 -> visits_all od -> reader_on f r -> fgt res (f64_of_Z (-1)) = true ->
  returns (fun n => get_depth_at_resolution n od res r) r1 (Ok d) ->
  exists l, selects od None res r l /\ exactly l (fun n => stored_nodes hs n /\ kd (n_key n) <= d).
Proof.
  intros f hs od r res r1 d S L V R G D. destruct (C49_nodes_at_resolution f hs od r res r1 d S L V R D) as (_ & r' & l & (m & A) & X). exists l. split; [|exact X].
  exists r', m. intros k K. unfold mp_select. rewrite G. now apply A.
Qed.
Print Assumptions C57_nodes_of_resolution.
Theorem C57_given_nodes : forall od r l res, fgt res (f64_of_Z (-1)) = false -> selects od (Some l) res r l.
Proof. intros od r l res G. exists r, 0%nat. intros k _. unfold mp_select. now rewrite G. Qed.
Print Assumptions C57_given_nodes.

(* ---- C57: the coordinates of all points, in one array or by node ---- *)
Theorem C57_concat : forall cd f hs h P limits od nodes res chunk r p l o, source cd f hs h P -> fresh_pool f p -> selects od nodes res r l -> Forall (stored_nodes hs) l -> 0 < chunk ->
  read_concat cd od limits nodes res chunk r p o ->
  (l = [] -> o = Throw) /\ (l <> [] -> exists l', Permutation l l' /\ o = Ok (flat_map (fun n => coordinates limits (P n)) l')).
Proof.
  intros cd f hs h P limits od nodes res chunk r p l o SR FP SL F N (all & o1 & H & ->).
  destruct (C57_visits_once cd f hs h P (read_xyz limits) (fun x s => (s ++ [snd x], Ok tt)) (fun n => coordinates limits (P n)) od nodes res chunk r p l [] all o1 SR FP SL F N) as (calls & rest & PM & E & O); [intros; apply read_xyz_ok|exact H|].
  rewrite each_collect in E. cbn [app] in E. pose proof (f_equal fst E) as E1. pose proof (f_equal snd E) as E2. cbn [fst snd] in E1, E2. subst o1. rewrite (O eq_refl), app_nil_r in PM. clear E O rest.
  apply perm_map_pre in PM as (l' & PM & ->). rewrite map_map in E1. cbn [snd] in E1. subst all. split.
  - intros ->. apply Permutation_nil in PM. subst l'. reflexivity.
  - intros NE. exists l'. split; [exact PM|]. destruct l' as [|n q] eqn:EL; [apply Permutation_sym, Permutation_nil in PM; contradiction|]. rewrite <- EL. rewrite EL at 1. cbn [map]. now rewrite flat_map_concat_map.
Qed.
Print Assumptions C57_concat.
Theorem C57_map : forall cd f hs h P limits od nodes res chunk r p l o, source cd f hs h P -> fresh_pool f p -> selects od nodes res r l -> Forall (stored_nodes hs) l -> NoDup (map n_key l) -> 0 < chunk ->
  read_map cd od limits nodes res chunk r p o ->
  exists m, o = Ok m /\ NoDup (map fst m) /\ forall name v, In (name, v) m <-> v <> [] /\ exists n, In n l /\ name = key_string (n_key n) /\ v = coordinates limits (P n).
Proof.
  intros cd f hs h P limits od nodes res chunk r p l o SR FP SL F ND N (m & o1 & H & ->).
  destruct (C57_visits_once cd f hs h P (read_xyz limits) map_step (fun n => coordinates limits (P n)) od nodes res chunk r p l [] m o1 SR FP SL F N) as (calls & rest & PM & E & O); [intros; apply read_xyz_ok|exact H|].
  change (each map_step calls [] = (m, o1)) in E.
  assert (PL : exists l' l2, Permutation l (l' ++ l2) /\ calls = map (fun n => (n, coordinates limits (P n))) l').
  { apply perm_map_pre in PM as (q & PM & EQ). symmetry in EQ. apply map_eq_app in EQ as (l' & l2 & -> & <- & _). eauto. }
  destruct PL as (l' & l2 & PL & ->). assert (ND' : NoDup (map n_key l')). { rewrite PL, map_app in ND. clear - ND. revert ND. generalize (map n_key l') (map n_key l2). intros a b. induction a as [|x a IH]; [constructor|]. cbn [app]. intros ND. apply NoDup_cons_iff in ND as (A & B). constructor; [|auto]. intros I. apply A, in_or_app. now left. }
  rewrite each_map in E; [|exact ND'|intros n _ []]. cbn [app] in E. pose proof (f_equal fst E) as E1. pose proof (f_equal snd E) as E2. cbn [fst snd] in E1, E2. subst o1. specialize (O eq_refl). subst rest.
  assert (PL' : Permutation l l'). { rewrite app_nil_r in PM. apply Permutation_length in PM. rewrite !map_length in PM. apply Permutation_length in PL as LL. rewrite app_length in LL. destruct l2; [now rewrite app_nil_r in PL|cbn in LL; lia]. }
  exists m. split; [reflexivity|]. subst m. split.
  - rewrite map_map. cbn [fst]. rewrite <- (map_map n_key key_string). apply FinFun.Injective_map_NoDup; [intros a b; apply key_string_inj|]. clear - ND'. induction l' as [|n l' IH]; [constructor|]. cbn [map filter] in *. apply NoDup_cons_iff in ND' as (A & B). destruct (nonnil _); [|auto]. cbn [map]. constructor; [|auto]. intros I. apply A. apply in_map_iff in I as (q & <- & I). apply filter_In in I as (I & _). now apply in_map.
  - intros name v. rewrite in_map_iff. split.
    + intros (n & Q & I). injection Q as <- <-. apply filter_In in I as (I & NN). split; [now destruct (coordinates limits (P n))|]. exists n. split; [|auto]. eapply Permutation_in; [apply Permutation_sym; exact PL'|exact I].
    + intros (NE & n & I & -> & ->). exists n. split; [reflexivity|]. apply filter_In. split; [eapply Permutation_in; eauto|]. now destruct (coordinates limits (P n)).
Qed.
Print Assumptions C57_map.
(* a negative chunk size silently selects nothing *)
Lemma negative_chunks {A} n (l : list A) : n < 0 -> py_chunks n l = Ok [].
Proof. intros N. unfold py_chunks, py_range. destruct (Z.eqb_spec n 0); [lia|]. destruct (Z.leb_spec n 0); [reflexivity|lia]. Qed.

(* three nodes in the sample file; the classification of a point is the user's result *)
Definition classes (x : node_data) (_ : node) : outcome (list Z) := let! ps := mapM (hget (fst x)) (c_pts (snd x)) in Ok (map p_class ps).
Definition note_result (x : node * list Z) (s : list (node * list Z)) : list (node * list Z) * outcome unit := (s ++ [x], Ok tt).
Lemma good_source : exists r h P, open_reader true good_file = Ok r /\ reader_on good_file r /\ source verbatim good_file good_pages h P /\ fresh_pool good_file (fun _ => r) /\ exactly (node_list good_pages) (stored_nodes good_pages) /\
  (exists n, stored_nodes good_pages n /\ length (P n) = 3%nat).
Proof.
  destruct good_ok as (r & hb & S & L & O & R & _ & RD & _ & _ & _ & X & _). exists r, (c_hdr (r_cfg r)), (points_of (c_hdr (r_cfg r)) good_file). split; [exact O|]. split; [exact R|]. split; [|split; [|split; [|exact X]]].
  - split; [exact S|]. split; [exact L|]. split; [exists r; auto|exact RD].
  - intros i. exact O.
  - split; [apply nodup_keys_ok; vm_compute; reflexivity|]. intros n. split; [apply node_list_in_rev; vm_compute; reflexivity|apply node_list_in].
Qed.
Example C57_nonvacuous : exists cd f hs h P r p l s', source cd f hs h P /\ fresh_pool f p /\ selects in_order None (f64_of_Z (-1)) r l /\ Forall (stored_nodes hs) l /\ NoDup (map n_key l) /\ length l = 3%nat /\
  (forall n, In n l -> classes (loaded h (P n)) n = Ok (map p_class (P n))) /\
  read_mt cd classes note_result in_order None (f64_of_Z (-1)) 2 r p [] s' (Ok tt) /\
  (exists o, read_concat cd in_order [] None (f64_of_Z (-1)) 2 r p o) /\ (exists o, read_map cd in_order [] None (f64_of_Z (-1)) 2 r p o).
Proof.
  destruct good_source as (r & h & P & O & R & SR & FP & X & _). pose proof SR as (S & L & _).
  destruct (C57_all_nodes good_file good_pages in_order r (f64_of_Z (-1)) S L in_order_all R ltac:(vm_compute; reflexivity)) as (l & SL & XL).
  assert (F : Forall (stored_nodes good_pages) l) by (apply Forall_forall; intros n I; now apply XL).
  assert (V : forall n, In n l -> classes (loaded h (P n)) n = Ok (map p_class (P n))) by (intros n _; unfold classes; rewrite (loaded_points h (P n) : mapM _ _ = _); reflexivity).
  assert (LEN : length l = 3%nat). { destruct X as (ND & X), XL as (ND' & XL). apply NoDup_map_inv in ND, ND'. assert (Q : Permutation l (node_list good_pages)) by (apply NoDup_Permutation; auto; intros n; now rewrite X, XL). apply Permutation_length in Q. rewrite Q. vm_compute. reflexivity. }
  destruct (py_chunks_pos 2 l ltac:(lia)) as (cs & C & _).
  destruct (each note_result (concat (map (map (fun n => (n, map p_class (P n)))) cs)) []) as (s', o) eqn:E.
  assert (o = Ok tt) as ->. { clear - E. revert E. generalize (@nil (node * list Z)). generalize (concat (map (map (fun n => (n, map p_class (P n)))) cs)). intros q. induction q as [|x q IH]; intros s E; cbn [each] in E; [congruence|exact (IH _ E)]. }
  exists verbatim, good_file, good_pages, h, P, r, (fun _ => r), l, s'. split; [exact SR|]. split; [exact FP|]. split; [exact SL|]. split; [exact F|]. split; [apply XL|]. split; [exact LEN|]. split; [exact V|]. split; [|split].
  - eapply (C57_any_order verbatim good_file good_pages h P classes note_result (fun n => map p_class (P n))); try eassumption. clear. induction cs; constructor; auto.
  - destruct (loop_exists (read_task verbatim (read_xyz [])) (fun x s => (s ++ [snd x], Ok tt)) in_order None (f64_of_Z (-1)) 2 r (fun _ => r) [] l SL) as (all & o & Q). eexists. exists all, o. split; [exact Q|reflexivity].
  - destruct (loop_exists (read_task verbatim (read_xyz [])) map_step in_order None (f64_of_Z (-1)) 2 r (fun _ => r) [] l SL) as (m & o & Q). eexists. exists m, o. split; [exact Q|reflexivity].
Qed.
(* False of the code for a negative chunk size: no node is visited, and no exception says so *)
Theorem C57_negative_chunk_refuted : exists cd f hs h P r p l, source cd f hs h P /\ fresh_pool f p /\ selects in_order None (f64_of_Z (-1)) r l /\ exactly l (stored_nodes hs) /\ length l = 3%nat /\
  forall {R St} (rf : node_data -> node -> outcome R) (callback : node * R -> St -> St * outcome unit) s s' o,
    read_mt cd rf callback in_order None (f64_of_Z (-1)) (-1) r p s s' o -> s' = s /\ o = Ok tt.
Proof.
  destruct good_source as (r & h & P & O & R & SR & FP & X & _). pose proof SR as (S & L & _).
  destruct (C57_all_nodes good_file good_pages in_order r (f64_of_Z (-1)) S L in_order_all R ltac:(vm_compute; reflexivity)) as (l & SL & XL).
  assert (LEN : length l = 3%nat). { destruct X as (ND & X), XL as (ND' & XL). apply NoDup_map_inv in ND, ND'. assert (Q : Permutation l (node_list good_pages)) by (apply NoDup_Permutation; auto; intros n; now rewrite X, XL). apply Permutation_length in Q. rewrite Q. vm_compute. reflexivity. }
  exists verbatim, good_file, good_pages, h, P, r, (fun _ => r), l. split; [exact SR|]. split; [exact FP|]. split; [exact SL|]. split; [exact XL|]. split; [exact LEN|].
  intros R0 St rf cb s s' o (fuel & r' & sel & E & H). rewrite (select_agree _ _ _ _ _ _ _ _ SL E) in H. rewrite negative_chunks in H by lia. inversion H; subst; auto.
Qed.
Print Assumptions C57_negative_chunk_refuted.
