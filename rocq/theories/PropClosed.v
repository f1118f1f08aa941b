(* PropClosed.v - property theorems C80 (a FileReader after Close) and C81 (several Readers on one stream) *)
From Coq Require Import Permutation.
From Verif Require Import Base BaseFacts ModelFloat ModelKey ModelGeom ModelEntry ModelPoint ModelPoints ModelHeader ModelVlr ModelExtents ModelConfig
  ModelStream ModelWriter ModelReader ModelClosed ModelShare SpecClosed SpecKey SpecPoint SpecConfig SpecHeader SpecWriter SpecHier SpecFile SpecReader SpecData
  ProofKey ProofReader ProofReader2 ProofReader3 ProofReader4 ProofReader5 ProofReader6 ProofData ProofData2 ProofData3 ProofOpen ProofClosed ProofShare SampleWriter SampleReader PropReader PropData.
Open Scope Z_scope.

(* ---- C80 ---- *)
(* Close may be called anywhere and any number of times: as long as no query is undefined, every query
   answers what it would have answered without the Close *)
Theorem C80_never_wrong : forall cd od fuel f cs x y l, open_file_reader f = Ok x -> frun cd od fuel cs x = Some (y, l) ->
  exists y', frun cd od fuel (filter is_ask cs) x = Some (y', l).
Proof.
  intros cd od fuel f cs x y l O E. unfold open_file_reader in O. destruct (open_reader true f) as [r| |]; try discriminate. cbn [bind] in O. assert (x = mkFR r true) as -> by congruence.
  exists (mkFR (fr_reader y) true). exact (run_agree cd od fuel cs r true y l E).
Qed.
Print Assumptions C80_never_wrong.
(* the queries about nodes are all defined once GetAllNodes has returned: they need nothing more from the file *)
Theorem C80_nodes_survive : forall cd f hs od od' r r1 l q fuel, copc_pages f hs -> Z.of_nat (length f) < 2 ^ 63 -> visits_all od -> reader_on f r ->
  returns (fun n => get_all_nodes n od r) r1 (Ok l) -> about_nodes q = true ->
  fask cd od' fuel q (mkFR r1 false) = match fask cd od' fuel q (mkFR r1 true) with Some (_, a) => Some (mkFR r1 false, a) | None => None end.
Proof.
  intros cd f hs od od' r r1 l q fuel S FL VA R (n1 & E1) N. destruct (all_nodes_good f _ _ hs S FL od r VA (on_good f hs r S FL R)) as (r2 & l2 & (n2 & E2) & (RI & _) & _ & _ & LD).
  assert (r2 = r1) as ->. { specialize (E1 (Nat.max n1 n2) (Nat.le_max_l _ _)). specialize (E2 (Nat.max n1 n2) (Nat.le_max_r _ _)). congruence. }
  unfold fask. cbn [fr_open fr_reader]. rewrite (answer_same cd od' fuel q r1 (loaded_all f _ _ hs r1 S RI LD) N). destruct (closed_answer od' fuel q r1); reflexivity.
Qed.
Print Assumptions C80_nodes_survive.
(* in particular FindNode *)
Theorem C80_find : forall cd f hs od od' r r1 l k, copc_pages f hs -> Z.of_nat (length f) < 2 ^ 63 -> visits_all od -> reader_on f r ->
  returns (fun n => get_all_nodes n od r) r1 (Ok l) ->
  exists n, (stored_node hs k n \/ (n = invalid_node /\ forall m, ~ stored_node hs k m)) /\
    exists n0, forall fuel, (n0 <= fuel)%nat -> fask cd od' fuel (QFind k) (mkFR r1 false) = Some (mkFR r1 false, Ok (ANode n)).
Proof.
  intros cd f hs od od' r r1 l k S FL VA R E.
  assert (R1 : good f hs r1). { destruct E as (n1 & E1). destruct (all_nodes_good f _ _ hs S FL od r VA (on_good f hs r S FL R)) as (r2 & l2 & (n2 & E2) & G & _).
    assert (r2 = r1) as <-; [|exact G]. specialize (E1 (Nat.max n1 n2) (Nat.le_max_l _ _)). specialize (E2 (Nat.max n1 n2) (Nat.le_max_r _ _)). congruence. }
  destruct (find_good f _ _ hs S FL k r1 R1) as (r' & o & (n0 & F) & _ & _ & B & C).
  assert (K : forall fuel, (n0 <= fuel)%nat -> fask cd od' fuel (QFind k) (mkFR r1 false) = match o with Ok n => Some (mkFR r1 false, Ok (ANode n)) | Throw => Some (mkFR r1 false, Throw) | UB => Some (mkFR r1 false, UB) end).
  { intros fuel L. rewrite (C80_nodes_survive cd f hs od od' r r1 l (QFind k) fuel S FL VA R E eq_refl). unfold fask. cbn [fr_open fr_reader answer_to]. rewrite (F fuel L). destruct o; reflexivity. }
  destruct (stored_dec f _ _ hs S k) as [(n & N)|N].
  - exists n. split; [now left|]. exists n0. intros fuel L. now rewrite (K fuel L), (B n N).
  - exists invalid_node. split; [right; split; [reflexivity|exact N]|]. exists n0. intros fuel L. now rewrite (K fuel L), (C N).
Qed.
Print Assumptions C80_find.
(* what needs the file is undefined after Close, not refused: point data of every node, and pages not read before *)
Definition defined (x : option (file_reader * outcome answer)) : bool := match x with Some (_, Ok _) => true | _ => false end.
Definition undefined (x : option (file_reader * outcome answer)) : bool := match x with Some (_, UB) => true | _ => false end.
Theorem C80_point_data_gone : forall cd od fuel n r q, node_valid n = true -> In q [QDataOf n; QPointsOf n; QCompressedOf n] -> undefined (fask cd od fuel q (mkFR r false)) = true.
Proof.
  intros cd od fuel n r q V Q. repeat (destruct Q as [<-|Q]; [unfold fask; cbn [fr_open fr_reader closed_answer]; unfold closed_data; rewrite V; reflexivity|]). destruct Q.
Qed.
Print Assumptions C80_point_data_gone.
Definition test_calls (f : bytes) (cs : list fcall) (t : file_reader -> file_reader -> list (outcome answer) -> bool) : bool :=
  match open_file_reader f with Ok x => match frun verbatim in_order 50 cs x with Some (y, l) => t x y l | None => false end | _ => false end.
Lemma test_calls_ok f cs t : test_calls f cs t = true -> exists x y l, open_file_reader f = Ok x /\ frun verbatim in_order 50 cs x = Some (y, l) /\ t x y l = true.
Proof. unfold test_calls. destruct (open_file_reader f) as [x| |]; try discriminate. destruct (frun verbatim in_order 50 cs x) as [(y, l)|] eqn:E; [|discriminate]. eauto 6. Qed.
Theorem C80_after_close_refuted : exists f hs x y l k n, copc_pages f hs /\ Z.of_nat (length f) < 2 ^ 63 /\ open_file_reader f = Ok x /\
  frun verbatim in_order 50 [FAsk QAllNodes] x = Some (y, l) /\ stored_node hs k n /\
  defined (fask verbatim in_order 50 (QData k) y) = true /\ undefined (fask verbatim in_order 50 (QData k) (fclose y)) = true /\
  defined (fask verbatim in_order 50 (QFind k) x) = true /\ undefined (fask verbatim in_order 50 (QFind k) (fclose x)) = true.
Proof.
  destruct (test_calls_ok good_file [FAsk QAllNodes] (fun x y _ => defined (fask verbatim in_order 50 (QData c0) y) && undefined (fask verbatim in_order 50 (QData c0) (fclose y)) &&
    defined (fask verbatim in_order 50 (QFind c0) x) && undefined (fask verbatim in_order 50 (QFind c0) (fclose x)))) as (x & y & l & O & E & T); [vm_compute; reflexivity|].
  apply andb_prop in T as (T & T4). apply andb_prop in T as (T & T3). apply andb_prop in T as (T1 & T2). destruct good_ok as (r & hb & A & B & _).
  set (n := mkNode (chunk_at 2 3 (at_key c0)) c0). assert (N : stored_nodes good_pages n) by (apply node_list_in_rev; [vm_compute; reflexivity|]; vm_compute; auto).
  exists good_file, good_pages, x, y, l, c0, n. split; [exact A|]. split; [exact B|]. split; [exact O|]. split; [exact E|]. split; [exact N|]. split; [exact T1|]. split; [exact T2|]. split; [exact T3|exact T4].
Qed.
Print Assumptions C80_after_close_refuted.
(* a program that reads nodes and points, closes, asks on, closes again and asks once more *)
Definition close_calls : list fcall := [FAsk QAllNodes; FAsk (QData c0); FClose; FAsk (QFind c0); FAsk (QChildren root_key); FClose; FAsk (QDepth f0); FAsk (QDataOf invalid_node)].
Example C80_nonvacuous : exists x y l r1 l1, open_file_reader good_file = Ok x /\ frun verbatim in_order 50 close_calls x = Some (y, l) /\ length l = 6%nat /\ copc_pages good_file good_pages /\ Z.of_nat (length good_file) < 2 ^ 63 /\ visits_all in_order /\
  reader_on good_file (fr_reader x) /\ returns (fun n => get_all_nodes n in_order (fr_reader x)) r1 (Ok l1).
Proof.
  destruct (test_calls_ok good_file close_calls (fun _ _ l => (length l =? 6)%nat)) as (x & y & l & O' & F & T); [vm_compute; reflexivity|]. apply Nat.eqb_eq in T.
  destruct good_ok as (r & hb & A & B & O & R & _). destruct (all_nodes_good good_file _ _ good_pages A B in_order r in_order_all (on_good _ _ r A B R)) as (r1 & l1 & E & _).
  assert (X : fr_reader x = r) by (revert O'; unfold open_file_reader; rewrite O; cbn [bind]; intros H; assert (x = mkFR r true) as -> by congruence; reflexivity).
  exists x, y, l, r1, l1. rewrite X. split; [exact O'|]. split; [exact F|]. split; [exact T|]. split; [exact A|]. split; [exact B|]. split; [apply in_order_all|]. split; [exact R|exact E].
Qed.

(* ---- C81 ---- *)
(* Readers on one stream that are asked for data the file has, in any order, answer what each would answer
   on a stream of its own *)
Theorem C81_independent : forall cd od fuel isfile f hs r0 rs cs t l, copc_pages f hs -> Z.of_nat (length f) < 2 ^ 63 -> visits_all od ->
  open_reader isfile f = Ok r0 -> Forall (eq r0) rs -> Forall (fun x => safe_query cd (c_hdr (r_cfg r0)) f hs (snd x)) cs ->
  shared_run cd od fuel cs (mkShared false rs) = Some (t, l) ->
  sh_fail t = false /\ forall i, (i < length rs)%nat -> exists r', own_run cd od fuel (of_reader i cs) r0 = Some (r', of_reader i l).
Proof.
  intros cd od fuel isfile f hs r0 rs cs t l S FL VA O RS Q E.
  assert (FR : fresh_reader f (copc_root_offset f) (copc_root_size f) r0) by (destruct (pages_root f hs S FL); now apply (opened_fields isfile)).
  assert (R0 : reader_on f r0) by (exists cd, od, isfile, r0; split; [exact O|]; split; [now exists 0%nat, []|]; now destruct FR as (_ & B & _)).
  destruct (shared_alone cd od fuel f _ _ hs (r_cfg r0) S FL VA cs (mkShared false rs) t l eq_refl) as (F & K).
  - intros i r I. cbn [sh_readers] in I. apply nth_error_In in I. rewrite Forall_forall in RS. rewrite <- (RS r I). split; [exact (on_good f hs r0 S FL R0)|reflexivity].
  - exact Q.
  - exact E.
  - split; [exact F|]. intros i I. apply nth_error_Some in I. destruct (nth_error rs i) as [r|] eqn:N; [|now elim I]. destruct (K i r N) as (r' & _ & H). apply nth_error_In in N. rewrite Forall_forall in RS. rewrite <- (RS r N) in H. eauto.
Qed.
Print Assumptions C81_independent.
(* otherwise not: a chunk that one Reader found truncated keeps the other from reading the hierarchy *)
Definition is_throw (x : nat * outcome answer) : bool := match snd x with Throw => true | _ => false end.
Definition is_node (n : node) (x : outcome answer) : bool := match x with Ok (ANode m) => if node_dec m n then true else false | _ => false end.
Definition test_shared (f : bytes) (cs : list (nat * query)) (t : reader -> list (nat * outcome answer) -> bool) : bool :=
  match open_reader true f with Ok r0 => match shared_run verbatim in_order 50 cs (mkShared false [r0; r0]) with Some (_, l) => t r0 l | None => false end | _ => false end.
Lemma test_shared_ok f cs t : test_shared f cs t = true -> exists r0 s l, open_reader true f = Ok r0 /\ shared_run verbatim in_order 50 cs (mkShared false [r0; r0]) = Some (s, l) /\ t r0 l = true.
Proof. unfold test_shared. destruct (open_reader true f) as [r0| |]; try discriminate. destruct (shared_run verbatim in_order 50 cs (mkShared false [r0; r0])) as [(s, l)|] eqn:E; [|discriminate]. eauto 6. Qed.
Theorem C81_truncated_chunk_refuted : exists f hs r0 cs t l r' k n, copc_pages f hs /\ Z.of_nat (length f) < 2 ^ 63 /\ open_reader true f = Ok r0 /\
  shared_run verbatim in_order 50 cs (mkShared false [r0; r0]) = Some (t, l) /\ stored_node hs k n /\ of_reader 1 cs = [QFind k] /\
  of_reader 1 l = [Throw] /\ own_run verbatim in_order 50 (of_reader 1 cs) r0 = Some (r', [Ok (ANode n)]).
Proof.
  set (n := mkNode (mkEntry d0 1020 20 5) c0). set (cs := [(0%nat, QCompressed c1); (1%nat, QFind d0)]).
  destruct (test_shared_ok cut_file cs (fun r0 l => match l with [(0%nat, _); (1%nat, Throw)] => true | _ => false end && match own_run verbatim in_order 50 [QFind d0] r0 with Some (_, [a]) => is_node n a | _ => false end))
    as (r0 & t & l & O & E & T); [vm_compute; reflexivity|]. apply andb_prop in T as (T1 & T2).
  destruct l as [|([|?], a1) [|([|[|?]], [?| |]) [|]]]; try discriminate T1. destruct (own_run verbatim in_order 50 [QFind d0] r0) as [(r', [|a [|]])|] eqn:W; try discriminate T2.
  assert (a = Ok (ANode n)) as ->. { unfold is_node in T2. destruct a as [[m| | | | | |]| |]; try discriminate T2. destruct (node_dec m n) as [->|]; [reflexivity|discriminate T2]. }
  exists cut_file, (draft_pages cube_file cut_draft), r0, cs, t, [(0%nat, a1); (1%nat, Throw)], r', d0, n. split; [apply hierarchy_b_ok; vm_compute; reflexivity|]. split; [vm_compute; reflexivity|]. split; [exact O|].
  split; [exact E|]. split; [|split; [reflexivity|split; [reflexivity|exact W]]].
  eexists (nth 1 (draft_pages cube_file cut_draft) (mkPI root_key 0 0 [])), (mkEntry d0 1020 20 5). vm_compute. intuition.
Qed.
Print Assumptions C81_truncated_chunk_refuted.
Example C81_nonvacuous : exists r0 t l, copc_pages good_file good_pages /\ Z.of_nat (length good_file) < 2 ^ 63 /\ visits_all in_order /\ open_reader true good_file = Ok r0 /\
  let cs := [(0%nat, QAllNodes); (1%nat, QData c1); (0%nat, QPoints c0); (1%nat, QFind e0); (0%nat, QCompressed c1)] in
  Forall (fun x => safe_query verbatim (c_hdr (r_cfg r0)) good_file good_pages (snd x)) cs /\ shared_run verbatim in_order 50 cs (mkShared false [r0; r0]) = Some (t, l) /\ forallb (fun x => negb (is_throw x)) l = true.
Proof.
  destruct good_ok as (r0 & hb & S & L & O & R & PH & RD & _ & _ & _ & _ & W). cbv zeta in *. set (cs := [(0%nat, QAllNodes); (1%nat, QData c1); (0%nat, QPoints c0); (1%nat, QFind e0); (0%nat, QCompressed c1)]).
  destruct (test_shared_ok good_file cs (fun _ l => forallb (fun x => negb (is_throw x)) l)) as (r1 & t & l & O1 & E & T); [vm_compute; reflexivity|]. assert (r1 = r0) as -> by congruence.
  exists r0, t, l. repeat (split; [assumption || apply in_order_all|]). split; [|split; [exact E|exact T]].
  assert (K : forall k n, stored_node good_pages k n -> stored_nodes good_pages n) by (intros k n (i & e & H1 & H2 & H3 & H4 & H5 & ->); exists i, e; auto 8).
  unfold cs. repeat constructor; cbn [safe_query snd]; intros; try (apply W; eapply K; eauto); eexists; apply RD; eauto.
Qed.
