(* PropHandles.v - C88: copies of a Writer *)
From Verif Require Import Base BaseFacts ModelFloat ModelKey ModelGeom ModelEntry ModelPoint ModelPoints ModelHeader ModelVlr ModelExtents ModelConfig
  ModelStream ModelWriter ModelReader ModelLazReader ModelLife ModelShare ModelHandles SpecKey SpecPoint SpecConfig SpecWriter SpecHier SpecFile SpecReader SpecData SpecLaz SpecRound SpecHandles
  ProofKey ProofConfig ProofShare ProofHandles SampleWriter SampleReader PropWriter PropData PropRound.
Open Scope Z_scope.

(* the arguments of the program's calls are within their C++ types; AddNodeCompressed is given positive counts *)
Definition well_typed (p : list hop) : Prop := forall i op, In (HCall i op) p -> wf_op op.
Definition positive_counts (p : list hop) : Prop := forall i op, In (HCall i op) p -> positive op.
Lemma of_program cd ods p s l n lg : hrun cd ods p no_handles = Some (s, l) -> no_ub l -> calls_first (events n l) lg -> all_defined lg /\ forall op, In op (map fst lg) -> exists i, In (HCall i op) p.
Proof.
  intros H U CF. pose proof (calls_logged n l _ lg CF eq_refl) as C. destruct (run_spec _ _ _ _ _ _ H U empty_bounded) as (_ & _ & M & _). split.
  - apply Forall_forall. intros x X. destruct (C x X) as (i & I). unfold no_ub in U. rewrite Forall_forall in U. exact (U _ I).
  - intros op I. apply in_map_iff in I as (x & <- & X). destruct (C x X) as (i & I). exists i. rewrite <- M. now apply (in_map fst) in I.
Qed.

(* ---- C88 ---- *)
(* Whatever the program does with its Writer objects, every file that was started is the work of one Writer, without
   copies, that makes in order the calls that went to this file through any object, with the same results. *)
Theorem C88_files : forall cd ods p s l, hrun cd ods p no_handles = Some (s, l) -> no_ub l ->
  length (wd_pool s) = length (started l) /\
  forall n c v, nth_error (started l) n = Some (c, v) -> exists w0 w, open_writer None c v = Ok w0 /\ nth_error (wd_pool s) n = Some w /\ lone cd (ods n) (events n l) w0 w.
Proof.
  intros cd ods p s l H U. destruct (run_spec _ _ _ _ _ _ H U empty_bounded) as (_ & _ & _ & L & _ & W). split; [exact L|]. intros n c v N. destruct (W n c v N) as (w0 & w & A & B & C). exists w0, w. auto.
Qed.
Print Assumptions C88_files.
(* when all calls come before the first Close, destruction or loss of an object of this file, the file is that of a
   complete session of one Writer with these calls *)
Theorem C88_one_session : forall cd ods p s l n c v w lg c0, hrun cd ods p no_handles = Some (s, l) -> no_ub l -> nth_error (started l) n = Some (c, v) -> nth_error (wd_pool s) n = Some w ->
  calls_first (events n l) lg -> init_writer c v = Ok c0 -> ready c0 -> well_typed p -> reorders (ods n) -> Z.of_nat (length (file w)) < 2 ^ 64 ->
  complete_session cd (ods n) c v c0 (map fst lg) lg w.
Proof.
  intros cd ods p s l n c v w lg c0 H U N W CF I R WT RO L. destruct (of_program _ _ _ _ _ _ _ H U CF) as (AD & IP). assert (WF : Forall wf_op (map fst lg)) by (apply Forall_forall; intros op X; destruct (IP op X) as (i & Y); eapply WT; exact Y). destruct (C88_files _ _ _ _ _ H U) as (_ & F). destruct (F n c v N) as (w0 & w' & O & W' & LO). assert (w' = w) as -> by congruence.
  split; [eapply lone_session; eauto|]. auto 10.
Qed.
Print Assumptions C88_one_session.
(* so every node added through any object is found by a Reader *)
Theorem C88_find : forall cd ods p s l n c v w lg c0 r k nd pg, hrun cd ods p no_handles = Some (s, l) -> no_ub l -> nth_error (started l) n = Some (c, v) -> nth_error (wd_pool s) n = Some w ->
  calls_first (events n l) lg -> init_writer c v = Ok c0 -> ready c0 -> well_typed p -> reorders (ods n) -> Z.of_nat (length (file w)) < 2 ^ 63 ->
  settled lg -> positive_counts p -> reader_on (file w) r -> view_of lg k = Some (nd, pg) ->
  exists r', returns (fun m => find_node m k r) r' (Ok (mkNode (n_entry nd) pg)).
Proof.
  intros cd ods p s l n c v w lg c0 r k nd pg H U N W CF I R WT RO L ST PC RD V. destruct (of_program _ _ _ _ _ _ _ H U CF) as (_ & IP). assert (PO : Forall positive (map fst lg)) by (apply Forall_forall; intros op X; destruct (IP op X) as (i & Y); eapply PC; exact Y). assert (L64 : Z.of_nat (length (file w)) < 2 ^ 64) by lia. pose proof (C88_one_session _ _ _ _ _ _ _ _ _ _ _ H U N W CF I R WT RO L64) as S.
  eapply C32_find_added; [|exact RD|exact V]. split; [exists (ods n), c, v; exact S|auto].
Qed.
Print Assumptions C88_find.
(* a file that no object means any more has been closed, and nothing the program does later changes it *)
Theorem C88_left_behind : forall cd ods p q s t l l' n w, hrun cd ods p no_handles = Some (s, l) -> no_ub l -> nth_error (wd_pool s) n = Some w -> (forall i, file_of (objects l) i <> Some n) ->
  hrun cd ods q s = Some (t, l') -> no_ub l' ->
  In (EClose (Ok None)) (events n l) /\ close cd (ods n) w = (w, Ok tt) /\ nth_error (wd_pool t) n = Some w.
Proof.
  intros cd ods p q s t l l' n w H U N F H' U'. destruct (run_spec _ _ _ _ _ _ H U empty_bounded) as (V & B & _ & LN & _ & W).
  assert (OB : wd_objs s = objects l) by exact (f_equal fst V).
  assert (F' : existsb (means n) (wd_objs s) = false). { destruct (existsb (means n) (wd_objs s)) eqn:E; [|reflexivity]. apply held_iff in E as (i & E). rewrite OB in E. now elim (F i). }
  assert (SH : shut s). { eapply run_shut; [exact H|exact U|apply empty_bounded|]. intros [|k] x X; discriminate X. }
  pose proof (SH n w N F') as S. assert (CL : close cd (ods n) w = (w, Ok tt)) by now apply close_shut.
  split; [|split; [exact CL|]].
  - assert (LT : (n < length (started l))%nat) by (cbn [no_handles wd_pool length] in LN; rewrite Nat.add_0_l in LN; rewrite <- LN; apply nth_error_Some; congruence).
    destruct (nth_error (started l) n) as [(c, v)|] eqn:O; [|apply nth_error_None in O; lia]. destruct (W n c v O) as (w0 & w' & A & K & L). cbn [no_handles wd_pool length Nat.add] in K, L. assert (w' = w) as -> by congruence.
    assert (OP : b_open (w_base w0) = true). { unfold open_writer in A. apply bind_ok in A as (c1 & _ & A). apply bind_ok in A as (z & _ & A). injection A as <-. reflexivity. }
    fold (events n l) in L. change (events_from n (view_of_handles no_handles) l) with (events n l) in L. clear - L OP S. induction L as [w|op r w w1 e w2 E L IH|r w w1 e w2 E L IH]; [congruence| |].
    + right. apply IH; [exact S|]. rewrite <- OP. eapply step_keeps_open; exact E.
    + destruct (close_cases _ _ _ _ _ E) as [(-> & _)|K]; [now left|]. right. apply IH; [exact S|]. now rewrite K.
  - destruct (run_spec _ _ _ _ _ _ H' U' B) as (_ & _ & _ & _ & KEEP & _). destruct (KEEP n w N) as (w' & N' & L'). rewrite N'. f_equal. assert (LT : (n < length (wd_pool s))%nat) by (apply nth_error_Some; congruence). clear - L' F' H' U' B LT.
    assert (Z : events_from n (view_of_handles s) l' = []); [|rewrite Z in L'; now apply lone_nil in L'].
    eapply silent_run; eauto.
Qed.
Print Assumptions C88_left_behind.

(* ---- witnesses ---- *)
Definition handles_test (p : list hop) (test : handles -> hlog -> bool) : bool :=
  match hrun verbatim (fun _ => plain) p no_handles with
  | Some (s, l) => forallb (fun x => match snd x with UB => false | _ => true end) l && test s l
  | None => false
  end.
Lemma handles_test_ok p test : handles_test p test = true -> exists s l, hrun verbatim (fun _ => plain) p no_handles = Some (s, l) /\ no_ub l /\ map fst l = p /\ test s l = true.
Proof.
  unfold handles_test. destruct (hrun _ _ _ _) as [(s, l)|] eqn:E; [|discriminate]. intros H. apply andb_prop in H as (D & T). exists s, l.
  assert (U : no_ub l). { apply Forall_forall. intros x X. rewrite forallb_forall in D. apply D in X. intros Q. now rewrite Q in X. }
  split; [reflexivity|]. split; [exact U|]. split; [|exact T]. destruct (run_spec _ _ _ _ _ _ E U empty_bounded) as (_ & _ & M & _). exact M.
Qed.
(* The desired property - a Writer stays usable when a copy of it is destroyed - is false of the code: the copy's
   destructor closes the file, and a node added later through the original is accepted but never found.  This is
   what passing a Writer by value does. *)
Definition by_value : list hop := [HNew round_config no_overrides; HCall 0 (WAdd k0 (repeat 1 48) k0); HCopy 0; HCall 1 (WAdd k1 (repeat 2 48) k0); HDestroy 1; HCall 0 (WAdd k2 (repeat 3 48) k0); HDestroy 0].
Definition lost_test (k : key) (s : handles) (l : hlog) : bool :=
  forallb (fun x => match snd x with Ok _ => true | _ => false end) l &&
  match nth_error (wd_pool s) 0 with
  | Some w => test_after (file w) [] (fun r _ => finds k invalid_node r)
  | None => false end.
Lemma lost_test_ok k s l : lost_test k s l = true -> Forall (fun x => exists a, snd x = Ok a) l /\ exists w r r', nth_error (wd_pool s) 0 = Some w /\ open_reader true (file w) = Ok r /\ returns (fun m => find_node m k r) r' (Ok invalid_node).
Proof.
  unfold lost_test. intros H. apply andb_prop in H as (A & H). split.
  - apply Forall_forall. intros x X. rewrite forallb_forall in A. apply A in X. destruct (snd x) as [a| |]; try discriminate X. eauto.
  - destruct (nth_error (wd_pool s) 0) as [w|]; [|discriminate H]. destruct (test_after_ok _ _ _ H) as (r & r0 & O & _ & _ & _ & F). destruct (finds_ok _ _ _ F) as (r' & F'). exists w, r, r'. auto.
Qed.
Theorem C88_copy_destroyed_refuted : exists s l w r r', hrun verbatim (fun _ => plain) by_value no_handles = Some (s, l) /\ map fst l = by_value /\ Forall (fun x => exists a, snd x = Ok a) l /\
  nth_error (wd_pool s) 0 = Some w /\ open_reader true (file w) = Ok r /\ returns (fun m => find_node m k2 r) r' (Ok invalid_node).
Proof.
  destruct (handles_test_ok by_value (lost_test k2)) as (s & l & H & _ & M & T); [vm_compute; reflexivity|]. destruct (lost_test_ok _ _ _ T) as (A & w & r & r' & N & O & F). exists s, l, w, r, r'. auto 10.
Qed.
Print Assumptions C88_copy_destroyed_refuted.
(* nor does a Writer survive the growth of a std::vector<Writer>, which copies it and destroys the original: there is
   no move constructor *)
Definition grown : list hop := [HNew round_config no_overrides; HCopy 0; HDestroy 0; HCall 1 (WAddCompressed k1 [9; 9; 9] 1 k0); HClose 1; HDestroy 1].
Theorem C88_vector_growth_refuted : exists s l w r r', hrun verbatim (fun _ => plain) grown no_handles = Some (s, l) /\ map fst l = grown /\ Forall (fun x => exists a, snd x = Ok a) l /\
  nth_error (wd_pool s) 0 = Some w /\ open_reader true (file w) = Ok r /\ returns (fun m => find_node m k1 r) r' (Ok invalid_node).
Proof.
  destruct (handles_test_ok grown (lost_test k1)) as (s & l & H & _ & M & T); [vm_compute; reflexivity|]. destruct (lost_test_ok _ _ _ T) as (A & w & r & r' & N & O & F). exists s, l, w, r, r'. auto 10.
Qed.
Print Assumptions C88_vector_growth_refuted.

(* two files; the first is written through a Writer and its copy, and the last object of the second is assigned over *)
Definition shared_use : list hop := [HNew round_config no_overrides; HCall 0 (WAdd k0 (repeat 1 48) k0); HNew round_config no_overrides; HCopy 0; HCall 2 (WAdd k1 (repeat 2 96) k0);
  HCall 1 (WAdd k0 (repeat 4 48) k0); HCall 0 (WAdd k2 (repeat 3 48) k1); HAssign 1 0; HDestroy 2; HDestroy 0; HDestroy 1].
Definition calls_split (e : list event) : option log :=
  (fix go e := match e with
   | ECall op r :: e => match go e with Some l => Some ((op, r) :: l) | None => None end
   | EClose (Ok None) :: e => if forallb (fun x => match x with EClose (Ok None) => true | _ => false end) e then Some [] else None
   | _ => None end) e.
Lemma calls_split_ok e l : calls_split e = Some l -> calls_first e l.
Proof.
  revert l. induction e as [|x e IH]; intros l H; cbn in H; [discriminate|]. destruct x as [op r|[[nd|]| |]]; try discriminate.
  - destruct (calls_split e) as [l'|] eqn:E; unfold calls_split in E; rewrite E in H; [|discriminate]. assert (l = (op, r) :: l') as -> by congruence. destruct (IH l' eq_refl) as (k & ->). exists k. reflexivity.
  - destruct (forallb _ e) eqn:F; [|discriminate]. assert (l = []) as -> by congruence. exists (length e). cbn. f_equal. clear - F. induction e as [|x e IH]; [reflexivity|]. cbn in F. apply andb_prop in F as (F1 & F2). destruct x as [|[[?|]| |]]; try discriminate F1. cbn. f_equal. auto.
Qed.
Definition shared_test (s : handles) (l : hlog) : bool :=
  match started l, wd_pool s, calls_split (events 0 l), calls_split (events 1 l) with
  | [_; _], [w0; w1], Some l0, Some l1 =>
      settled_b (fun _ => None) l0 && (Z.of_nat (length (file w0)) <? 2 ^ 63) && opens (file w0) && (Nat.eqb (length l0) 3) && (Nat.eqb (length l1) 1) &&
      forallb (fun x => match x with (WAdd _ _ _, Ok (Some _)) => true | _ => false end) l0 &&
      match view_of l0 k1 with Some (_, pg) => key_eqb pg k0 | None => false end &&
      forallb (fun o => match o with None => true | _ => false end) (objects l)
  | _, _, _, _ => false
  end.
Lemma shared_test_ok s l : map fst l = shared_use -> shared_test s l = true -> started l = [(round_config, no_overrides); (round_config, no_overrides)] /\
  exists w0 w1 l0 l1 r n, wd_pool s = [w0; w1] /\ calls_first (events 0 l) l0 /\ calls_first (events 1 l) l1 /\ settled l0 /\ length l0 = 3%nat /\ length l1 = 1%nat /\
    Z.of_nat (length (file w0)) < 2 ^ 63 /\ reader_on (file w0) r /\ view_of l0 k1 = Some (n, k0) /\ (forall i n, file_of (objects l) i <> Some n).
Proof.
  intros M T. unfold shared_test in T. destruct (started l) as [|a [|b [|]]] eqn:ST; try discriminate T. destruct (wd_pool s) as [|w0 [|w1 [|]]]; try discriminate T. destruct (calls_split (events 0 l)) as [l0|] eqn:C0; [|discriminate T]. destruct (calls_split (events 1 l)) as [l1|] eqn:C1; [|discriminate T].
  apply calls_split_ok in C0, C1. apply andb_prop in T as (T & OBJ). apply andb_prop in T as (T & V). apply andb_prop in T as (T & AD). apply andb_prop in T as (T & N1). apply andb_prop in T as (T & N0). apply andb_prop in T as (T & OP). apply andb_prop in T as (SE & L).
  split.
  - assert (X : forall l, (forall x, In x (map fst l) -> match x with HNew c v => (c, v) = (round_config, no_overrides) | _ => True end) -> forall x, In x (started l) -> x = (round_config, no_overrides)).
    { clear. intros l F x X. unfold started in X. apply in_flat_map in X as ((o, r) & I & X). specialize (F o (in_map fst _ _ I)). destruct o; try (destruct X; fail). destruct r as [q| |]; [destruct X as [X|[]]; congruence|destruct X|destruct X]. }
    assert (Q : forall x, In x [a; b] -> x = (round_config, no_overrides)). { rewrite <- ST. apply X. rewrite M. clear. unfold shared_use. intros x I. cbn [In] in I. repeat (destruct I as [<-|I]; [reflexivity || exact Logic.I|]). destruct I. }
    rewrite (Q a), (Q b) by (cbn; auto). reflexivity.
  - apply settled_b_ok in SE. apply Z.ltb_lt in L. apply opens_ok in OP as (r & _ & R). apply Nat.eqb_eq in N0, N1. destruct (view_of l0 k1) as [(n, pg)|] eqn:VK; [|discriminate V]. apply key_eqb_eq in V as ->.
    exists w0, w1, l0, l1, r, n. split; [reflexivity|]. split; [exact C0|]. split; [exact C1|]. split; [exact SE|]. split; [exact N0|]. split; [exact N1|]. split; [exact L|]. split; [exact R|]. split; [exact VK|].
    intros i m F. assert (In (Some m) (objects l)). { unfold file_of in F. destruct (nth_error (objects l) i) as [[q|]|] eqn:E; try discriminate F. apply nth_error_In in E. congruence. } rewrite forallb_forall in OBJ. apply OBJ in H. discriminate H.
Qed.
Lemma shared_typed : well_typed shared_use /\ positive_counts shared_use.
Proof.
  assert (W : Forall (fun o => match o with HCall _ op => wf_op op | _ => True end) shared_use) by (unfold shared_use; repeat constructor; cbn; lia).
  assert (P : Forall (fun o => match o with HCall _ op => positive op | _ => True end) shared_use) by (unfold shared_use; repeat constructor).
  split; intros i op H; [rewrite Forall_forall in W; exact (W _ H)|rewrite Forall_forall in P; exact (P _ H)].
Qed.
(* a program in which the file written through two objects qualifies for C88_find, and every file is left behind *)
Example C88_nonvacuous : exists s l w lg r nd, hrun verbatim (fun _ => plain) shared_use no_handles = Some (s, l) /\ no_ub l /\ nth_error (started l) 0 = Some (round_config, no_overrides) /\ nth_error (wd_pool s) 0 = Some w /\
  calls_first (events 0 l) lg /\ length lg = 3%nat /\ init_writer round_config no_overrides = Ok round_config /\ ready round_config /\ well_typed shared_use /\ reorders plain /\ Z.of_nat (length (file w)) < 2 ^ 63 /\
  settled lg /\ positive_counts shared_use /\ reader_on (file w) r /\ view_of lg k1 = Some (nd, k0) /\ (forall i n, file_of (objects l) i <> Some n) /\ length (wd_pool s) = 2%nat.
Proof.
  destruct (handles_test_ok shared_use shared_test) as (s & l & H & U & M & T); [vm_compute; reflexivity|]. destruct (shared_test_ok _ _ M T) as (ST & w0 & w1 & l0 & l1 & r & n & P & C0 & C1 & SE & N0 & N1 & L & R & V & OB).
  destruct round_config_ok as (RD & I). destruct shared_typed as (WT & PC). exists s, l, w0, l0, r, n. rewrite P, ST. repeat (split; [first [exact H|exact U|reflexivity|exact C0|exact N0|exact I|exact RD|exact WT|exact plain_reorders|exact L|exact SE|exact PC|exact R|exact V|exact OB]|]). reflexivity.
Qed.

(* ---- LazWriter ---- *)
(* a copy of a LazWriter has its own counters on the same stream.  Copies of a closed LazWriter are harmless: Close and
   destruction leave the file alone *)
Definition laz_tidy (o : lhop) : Prop := match o with LHCall _ _ => False | _ => True end.
Theorem C88_laz_closed_copies : forall cd p s t l, (forall i w, laz_object s i = Some w -> b_open (lw_base w) = false) -> Forall laz_tidy p -> lhrun cd p s = Some (t, l) -> lz_out t = lz_out s.
Proof.
  intros cd p. induction p as [|o p IH]; intros s t l C T H; cbn [lhrun] in H; [assert (t = s) as -> by congruence; reflexivity|]. inversion T as [|? ? T1 T2]; subst.
  assert (ST : exists s1 r, lhstep cd o s = Some (s1, r) /\ lz_out s1 = lz_out s /\ (forall i w, laz_object s1 i = Some w -> b_open (lw_base w) = false)).
  { assert (CL : forall w, b_open (lw_base w) = false -> close_laz cd w = (w, Ok tt)). { intros w O. unfold close_laz, base_close. rewrite O. cbn [negb]. destruct w; reflexivity. }
    assert (OUT : forall i w, laz_object s i = Some w -> b_out (lw_base w) = lz_out s). { intros i w O. unfold laz_object in O. destruct (nth_error (lz_objs s) i) as [[b|]|]; try discriminate O. assert (w = mkLW (with_out (lz_out s) b) (lz_cfg s)) as -> by congruence. reflexivity. }
    assert (REP : forall i w o', laz_object s i = Some w -> (o' = None \/ o' = Some (lw_base w)) -> forall j w', laz_object (laz_after i o' w s) j = Some w' -> b_open (lw_base w') = false).
    { intros i w o' O CASE j w' W. unfold laz_after, laz_object in W. cbn [lz_objs lz_out lz_cfg] in W. destruct (Nat.eq_dec i j) as [->|D].
      - assert (L : (j < length (lz_objs s))%nat). { apply nth_error_Some. unfold laz_object in O. destruct (nth_error (lz_objs s) j); congruence. } rewrite replace_same in W by exact L.
        destruct CASE as [->| ->]; [discriminate W|]. assert (w' = mkLW (with_out (b_out (lw_base w)) (lw_base w)) (lz_cfg s)) as -> by congruence. cbn [lw_base with_out b_open]. exact (C j w O).
      - rewrite replace_other in W by exact D. destruct (nth_error (lz_objs s) j) as [[b|]|] eqn:N; try discriminate W. assert (w' = mkLW (with_out (b_out (lw_base w)) b) (lz_cfg s)) as -> by congruence. cbn [lw_base with_out b_open].
        specialize (C j (mkLW (with_out (lz_out s) b) (lz_cfg s))). unfold laz_object in C. rewrite N in C. exact (C eq_refl). }
    destruct o as [i|i op|i|i]; [|destruct T1| |]; cbn [lhstep]; destruct (laz_object s i) as [w|] eqn:O; try (exists s, UB; split; [reflexivity|split; [reflexivity|exact C]]).
    - exists (mkLazWorld (lz_out s) (lz_cfg s) (lz_objs s ++ [Some (lw_base w)])), (Ok tt). split; [reflexivity|]. split; [reflexivity|]. intros j w' W. unfold laz_object in W. cbn [lz_objs lz_out lz_cfg] in W.
      destruct (Nat.lt_ge_cases j (length (lz_objs s))) as [L|L].
      + rewrite nth_error_app1 in W by exact L. apply (C j). exact W.
      + rewrite nth_error_app2 in W by exact L. destruct (j - length (lz_objs s))%nat as [|[|k]]; cbn in W; try discriminate W. assert (w' = mkLW (with_out (lz_out s) (lw_base w)) (lz_cfg s)) as -> by congruence. exact (C i w O).
    - rewrite CL by exact (C i w O). eexists _, _. split; [reflexivity|]. split; [exact (OUT i w O)|]. apply (REP i w); auto.
    - rewrite CL by exact (C i w O). eexists _, _. split; [reflexivity|]. split; [exact (OUT i w O)|]. apply (REP i w); auto. }
  destruct ST as (s1 & r & E & OE & C1). rewrite E in H. destruct r as [u| |]; [| |assert (t = s1) as -> by congruence; exact OE].
  1-2: destruct (lhrun cd p s1) as [(t', l')|] eqn:R; [|discriminate H]; assert (t' = t) as -> by congruence; rewrite (IH _ _ _ C1 T2 R); exact OE.
Qed.
Print Assumptions C88_laz_closed_copies.
(* The desired property - the file holds the points written through every copy - is false of the code: each copy writes
   its own chunk table and header, and the last one to be closed wins *)
Definition laz_by_value : list lhop := [LHCall 0 (LWriteCompressed (repeat 7 40) 5); LHCopy 0; LHCall 1 (LWriteCompressed (repeat 8 40) 2); LHDestroy 1; LHDestroy 0].
(* points given to accepted calls, through any object *)
Definition points_given (l : list (lhop * outcome unit)) : Z := fold_right (fun x a => match x with (LHCall _ (LWriteCompressed _ n), Ok _) => n + a | _ => a end) 0 l.
Definition laz_handles_test : bool :=
  match open_laz_writer None a_laz_config with
  | Ok w => match lhrun verbatim laz_by_value (laz_alone w) with
            | Some (s, l) => forallb (fun x => match snd x with Ok _ => true | _ => false end) l && (Nat.eqb (length l) 5) && (points_given l =? 7) && (las_point_count (o_data (lz_out s)) =? 5)
            | None => false end
  | _ => false end.
Theorem C88_laz_copies_refuted : exists w s l, open_laz_writer None a_laz_config = Ok w /\ lhrun verbatim laz_by_value (laz_alone w) = Some (s, l) /\ length l = length laz_by_value /\ Forall (fun x => snd x = Ok tt) l /\
  points_given l = 7 /\ las_point_count (o_data (lz_out s)) = 5.
Proof.
  assert (T : laz_handles_test = true) by (vm_compute; reflexivity). unfold laz_handles_test in T. destruct (open_laz_writer None a_laz_config) as [w| |]; try discriminate T. destruct (lhrun _ _ _) as [(s, l)|] eqn:E; [|discriminate T].
  apply andb_prop in T as (T & T3). apply andb_prop in T as (T & T4). apply andb_prop in T as (T1 & T2). apply Nat.eqb_eq in T2. apply Z.eqb_eq in T3, T4. exists w, s, l. split; [reflexivity|]. split; [exact E|]. split; [exact T2|]. split; [|auto].
  apply Forall_forall. intros x X. rewrite forallb_forall in T1. apply T1 in X. destruct (snd x) as [[]| |]; congruence.
Qed.
Print Assumptions C88_laz_copies_refuted.
(* a closed LazWriter and its copies *)
Example C88_laz_nonvacuous : exists w w' t l, open_laz_writer None a_laz_config = Ok w /\ close_laz verbatim w = (w', Ok tt) /\ (forall i x, laz_object (laz_alone w') i = Some x -> b_open (lw_base x) = false) /\
  Forall laz_tidy [LHCopy 0; LHDestroy 1; LHClose 0; LHDestroy 0] /\ lhrun verbatim [LHCopy 0; LHDestroy 1; LHClose 0; LHDestroy 0] (laz_alone w') = Some (t, l).
Proof.
  assert (T : match open_laz_writer None a_laz_config with Ok w => match close_laz verbatim w with (w', Ok _) => negb (b_open (lw_base w')) | _ => false end | _ => false end = true) by (vm_compute; reflexivity).
  destruct (open_laz_writer None a_laz_config) as [w| |]; try discriminate T. destruct (close_laz verbatim w) as (w', [[]| |]) eqn:C; try discriminate T. apply negb_true_iff in T.
  exists w, w'. assert (CL : close_laz verbatim w' = (w', Ok tt)) by (unfold close_laz, base_close; rewrite T; cbn [negb]; destruct w'; reflexivity).
  assert (WO : mkLW (with_out (b_out (lw_base w')) (lw_base w')) (lw_cfg w') = w') by (clear; destruct w' as [b z]; destruct b; reflexivity).
  assert (X : exists t l, lhrun verbatim [LHCopy 0; LHDestroy 1; LHClose 0; LHDestroy 0] (laz_alone w') = Some (t, l)).
  { unfold laz_alone. cbn [lhrun lhstep laz_object lz_objs lz_out lz_cfg nth_error app]. rewrite WO. unfold laz_after. cbn [lz_objs lz_out lz_cfg nth_error app replace_nth]. rewrite WO, CL. cbn [laz_object lz_objs lz_out lz_cfg nth_error app replace_nth]. rewrite WO, CL. cbn [laz_object lz_objs lz_out lz_cfg nth_error app replace_nth]. rewrite WO, CL. eauto. }
  destruct X as (t & l & X). exists t, l. split; [reflexivity|]. split; [exact C|]. split; [|split; [repeat constructor|exact X]].
  intros [|i] x O; cbn [laz_alone laz_object lz_objs nth_error lz_out lz_cfg] in O; [|destruct i; discriminate O]. unfold laz_object, laz_alone in O. cbn [lz_objs nth_error lz_out lz_cfg] in O. assert (x = w') as -> by congruence. exact T.
Qed.
