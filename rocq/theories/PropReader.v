(* PropReader.v - property theorems C44-C50: what a Reader finds in the hierarchy of a file *)
From Coq Require Import Permutation.
From Verif Require Import Base BaseFacts ModelFloat ModelKey ModelGeom ModelEntry ModelPoint ModelPoints ModelHeader ModelVlr ModelExtents ModelConfig
  ModelStream ModelWriter ModelReader SpecKey SpecPoint SpecConfig SpecHeader SpecWriter SpecHier SpecFile SpecReader SpecData
  ProofKey ProofReader ProofReader2 ProofReader3 ProofReader4 ProofReader5 ProofReader6 ProofData ProofData2 ProofData3 ProofOpen SampleWriter SampleReader.
Open Scope Z_scope.

Lemma on_good f hs r : copc_pages f hs -> Z.of_nat (length f) < 2 ^ 63 -> reader_on f r -> good f hs r.
Proof. intros S L R. eapply used_good; eauto. eapply reader_used; eauto. Qed.

(* a file with three pages: the root page with two nodes, two pages below each other with two and one nodes *)
Definition c0 := mkKey 1 0 0 0.
Definition c1 := mkKey 1 1 0 0.
Definition d0 := mkKey 2 0 0 0.
Definition d1 := mkKey 2 1 1 1.
Definition e0 := mkKey 3 1 1 1.
Definition fine_draft : draft :=
  [(root_key, [inl (mkEntry root_key 1000 20 4); inr c0; inl (mkEntry c1 1020 20 5)]);
   (c0, [inl (mkEntry c0 1040 20 6); inr d0; inl (mkEntry d1 1060 20 0)]);
   (d0, [inl (mkEntry e0 1080 20 7)])].
Definition fine_file : bytes := Eval vm_compute in draft_file cube_file fine_draft.
Definition fine_pages : list page_info := Eval vm_compute in draft_pages cube_file fine_draft.
Lemma fine_ok : copc_pages fine_file fine_pages /\ Z.of_nat (length fine_file) < 2 ^ 63 /\ exists r, open_reader true fine_file = Ok r /\ reader_on fine_file r.
Proof. split; [apply hierarchy_b_ok; vm_compute; reflexivity|]. split; [vm_compute; reflexivity|]. apply opens_ok. vm_compute. reflexivity. Qed.

(* ---- C44 ---- *)
(* whatever was asked before, FindNode returns the node stored under the key, or an invalid node *)
Theorem C44_find : forall f hs r k, copc_pages f hs -> Z.of_nat (length f) < 2 ^ 63 -> reader_on f r ->
  exists r' o, returns (fun n => find_node n k r) r' o /\ (forall n, stored_node hs k n -> o = Ok n) /\ ((forall n, ~ stored_node hs k n) -> o = Ok invalid_node).
Proof.
  intros f hs r k S L R. destruct (find_good f _ _ hs S L k r (on_good f hs r S L R)) as (r' & o & A & _ & _ & B & C). eauto.
Qed.
Print Assumptions C44_find.
Theorem C44_history_independent : forall f hs k r1 r1' o1 r2 r2' o2, copc_pages f hs -> Z.of_nat (length f) < 2 ^ 63 -> reader_on f r1 -> reader_on f r2 ->
  returns (fun n => find_node n k r1) r1' o1 -> returns (fun n => find_node n k r2) r2' o2 -> o1 = o2.
Proof.
  intros f hs k r1 r1' o1 r2 r2' o2 S L R1 R2 (n1 & E1) (n2 & E2).
  destruct (C44_find f hs r1 k S L R1) as (s1 & p1 & (m1 & F1) & A1 & B1). destruct (C44_find f hs r2 k S L R2) as (s2 & p2 & (m2 & F2) & A2 & B2).
  assert (p1 = o1) as <-. { specialize (E1 (Nat.max n1 m1) (Nat.le_max_l _ _)). specialize (F1 (Nat.max n1 m1) (Nat.le_max_r _ _)). congruence. }
  assert (p2 = o2) as <-. { specialize (E2 (Nat.max n2 m2) (Nat.le_max_l _ _)). specialize (F2 (Nat.max n2 m2) (Nat.le_max_r _ _)). congruence. }
  destruct (stored_dec f _ _ hs S k) as [(n & N)|N]; [now rewrite (A1 n N), (A2 n N)|]. now rewrite (B1 N), (B2 N).
Qed.
Print Assumptions C44_history_independent.
Example C44_nonvacuous : exists r n, copc_pages fine_file fine_pages /\ Z.of_nat (length fine_file) < 2 ^ 63 /\ reader_on fine_file r /\ stored_node fine_pages e0 n /\ e_count (n_entry n) = 7.
Proof.
  destruct fine_ok as (S & L & r & _ & R). exists r, (mkNode (mkEntry e0 1080 20 7) d0). repeat (split; [assumption|]). split; [|reflexivity].
  eexists (nth 2 fine_pages (mkPI root_key 0 0 [])), (mkEntry e0 1080 20 7). vm_compute. intuition.
Qed.
(* a page attached to a farther ancestor: the answer depends on what was asked before *)
Definition far_draft : draft := [(root_key, [inr c0; inr d0]); (c0, [inl (mkEntry (mkKey 3 0 0 0) 1000 20 4)]); (d0, [inl (mkEntry (mkKey 3 1 1 1) 1020 20 5)])].
Definition far_file : bytes := Eval vm_compute in draft_file cube_file far_draft.
Theorem C44_far_pages_refuted : exists f hs k n r r', loose_hierarchy f (copc_root_offset f) (copc_root_size f) hs /\ Z.of_nat (length f) < 2 ^ 63 /\ reader_on f r /\ reader_on f r' /\ stored_node hs k n /\
  (exists s, returns (fun n => find_node n k r) s (Ok invalid_node)) /\ (exists s, returns (fun m => find_node m k r') s (Ok n)).
Proof.
  destruct (test_after_ok far_file [QAllNodes] (fun r r' => finds (mkKey 3 0 0 0) invalid_node r && finds (mkKey 3 0 0 0) (mkNode (mkEntry (mkKey 3 0 0 0) 1000 20 4) c0) r')) as (r & r' & _ & R & _ & R' & T); [vm_compute; reflexivity|].
  apply andb_prop in T as (T1 & T2). exists far_file, (draft_pages cube_file far_draft), (mkKey 3 0 0 0), (mkNode (mkEntry (mkKey 3 0 0 0) 1000 20 4) c0), r, r'.
  split; [apply loose_b_ok; vm_compute; reflexivity|]. split; [vm_compute; reflexivity|]. split; [exact R|]. split; [exact R'|]. split; [|split; now apply finds_ok].
  eexists (nth 1 (draft_pages cube_file far_draft) (mkPI root_key 0 0 [])), (mkEntry (mkKey 3 0 0 0) 1000 20 4). vm_compute. intuition.
Qed.
Print Assumptions C44_far_pages_refuted.

(* ---- C45 ---- *)
(* the nodes of a page and of the pages inside it, each once *)
Theorem C45_children : forall f hs od r k h, copc_pages f hs -> Z.of_nat (length f) < 2 ^ 63 -> visits_all od -> reader_on f r ->
  In h hs -> pi_key h = k -> (forall n, stored_node hs k n -> n_page n = k \/ refers_to hs (n_page n) k) ->
  exists r' l, returns (fun n => get_all_children_of_page n od k r) r' (Ok l) /\ exactly l (nodes_below hs k).
Proof.
  intros f hs od r k h S L V R I K N. destruct (children_good f _ _ hs S L od k r V (on_good f hs r S L R) h I K (or_intror N)) as (r' & l & A & _ & _ & B & _). eauto.
Qed.
Print Assumptions C45_children.
(* all pages having been loaded, for every page *)
Theorem C45_children_after_all_nodes : forall f hs od r r1 l1 k h, copc_pages f hs -> Z.of_nat (length f) < 2 ^ 63 -> visits_all od -> reader_on f r ->
  returns (fun n => get_all_nodes n od r) r1 (Ok l1) -> In h hs -> pi_key h = k ->
  exists r' l, returns (fun n => get_all_children_of_page n od k r1) r' (Ok l) /\ exactly l (nodes_below hs k).
Proof.
  intros f hs od r r1 l1 k h S L V R (n1 & E1) I K. destruct (all_nodes_good f _ _ hs S L od r V (on_good f hs r S L R)) as (r2 & l2 & (n2 & E2) & G & _ & _ & A).
  assert (r2 = r1 /\ l2 = l1) as (-> & ->). { specialize (E1 (Nat.max n1 n2) (Nat.le_max_l _ _)). specialize (E2 (Nat.max n1 n2) (Nat.le_max_r _ _)). rewrite E1 in E2. split; congruence. }
  assert (Z' : is_seen r1 k). { subst k. destruct (A h I) as (i & p & P & Q & _). now exists i, p. }
  destruct (children_good f _ _ hs S L od k r1 V G h I K (or_introl Z')) as (r' & l & B & _ & _ & C & _). eauto.
Qed.
Print Assumptions C45_children_after_all_nodes.
Theorem C45_no_page : forall f hs od r k, copc_pages f hs -> Z.of_nat (length f) < 2 ^ 63 -> visits_all od -> reader_on f r ->
  (forall h, In h hs -> pi_key h <> k) ->
  exists r' o, returns (fun n => get_all_children_of_page n od k r) r' o /\ (forall n, stored_node hs k n -> o = Ok [n]) /\ ((forall n, ~ stored_node hs k n) -> o = Ok []).
Proof.
  intros f hs od r k S L V R N. destruct (no_page_good f _ _ hs S L od k r V (on_good f hs r S L R) N) as (r' & o & A & _ & _ & B & C). eauto.
Qed.
Print Assumptions C45_no_page.
Example C45_nonvacuous : exists r h, copc_pages fine_file fine_pages /\ visits_all in_order /\ reader_on fine_file r /\ In h fine_pages /\ pi_key h = c0 /\
  (forall n, stored_node fine_pages c0 n -> n_page n = c0 \/ refers_to fine_pages (n_page n) c0) /\ (exists n, nodes_below fine_pages c0 n /\ n_key n = e0) /\
  (exists n, stored_node fine_pages d1 n) /\ (forall h, In h fine_pages -> pi_key h <> d1).
Proof.
  destruct fine_ok as (S & L & r & _ & R). exists r, (nth 1 fine_pages (mkPI root_key 0 0 [])). split; [exact S|]. split; [apply in_order_all|]. split; [exact R|]. split; [vm_compute; auto|]. split; [reflexivity|]. split; [|split; [|split]].
  - intros n (i & e & I & _ & E & N & K & ->). left. cbn [n_page]. cbn in I. destruct I as [<-|[<-|[<-|[]]]]; cbn in E; repeat (destruct E as [<-|E]; [vm_compute in K, N; try discriminate; reflexivity|]); destruct E.
  - exists (mkNode (mkEntry e0 1080 20 7) d0). split; [|reflexivity]. eexists (nth 2 fine_pages (mkPI root_key 0 0 [])), (mkEntry e0 1080 20 7). vm_compute. intuition.
  - eexists. eexists (nth 1 fine_pages (mkPI root_key 0 0 [])), (mkEntry d1 1060 20 0). vm_compute. intuition.
  - intros h I. cbn in I. destruct I as [<-|[<-|[<-|[]]]]; vm_compute; discriminate.
Qed.
(* a node stored in a shallower page than the page of the same key is attached to: the first call returns the node, a later one the page *)
Definition up_draft : draft := [(root_key, [inl (mkEntry d0 1000 20 4); inr c0]); (c0, [inr d0]); (d0, [inl (mkEntry (mkKey 3 0 0 0) 1020 20 5)])].
Definition up_file : bytes := Eval vm_compute in draft_file cube_file up_draft.
Theorem C45_shallow_node_refuted : exists f hs k h n r r' l, copc_pages f hs /\ Z.of_nat (length f) < 2 ^ 63 /\ In h hs /\ pi_key h = k /\ reader_on f r /\ reader_on f r' /\
  (exists s, returns (fun m => get_all_children_of_page m in_order k r) s (Ok [n])) /\ ~ nodes_below hs k n /\
  (exists s, returns (fun m => get_all_children_of_page m in_order k r') s (Ok l)) /\ exactly l (nodes_below hs k).
Proof.
  set (n1 := mkNode (mkEntry d0 1000 20 4) root_key). set (n2 := mkNode (mkEntry (mkKey 3 0 0 0) 1020 20 5) d0). set (hs := draft_pages cube_file up_draft).
  destruct (test_after_ok up_file [QAllNodes] (fun r r' => lists d0 [n1] r && lists d0 [n2] r')) as (r & r' & _ & R & _ & R' & T); [vm_compute; reflexivity|].
  apply andb_prop in T as (T1 & T2). exists up_file, hs, d0, (nth 2 hs (mkPI root_key 0 0 [])), n1, r, r', [n2].
  split; [apply hierarchy_b_ok; vm_compute; reflexivity|]. split; [vm_compute; reflexivity|]. split; [vm_compute; auto|]. split; [reflexivity|]. split; [exact R|]. split; [exact R'|]. split; [now apply lists_ok|]. split; [|split; [now apply lists_ok|]].
  - intros (i & e & I & K & J & N & Q). apply (f_equal n_page) in Q. cbn [n_page n1] in Q. rewrite <- Q in K. discriminate K.
  - split; [constructor; [intros []|constructor]|]. intros n. split.
    + intros [<-|[]]. exists (nth 2 hs (mkPI root_key 0 0 [])), (mkEntry (mkKey 3 0 0 0) 1020 20 5). vm_compute. intuition.
    + intros (i & e & I & K & J & N & ->). vm_compute in I. destruct I as [<-|[<-|[<-|[]]]]; [discriminate K..|]. cbn in J. destruct J as [<-|[]]. now left.
Qed.
Print Assumptions C45_shallow_node_refuted.

(* ---- C46 ---- *)
Theorem C46_terminates : forall f r k od, copc_finite f -> reader_on f r -> visits_all od ->
  (exists r' o, returns (fun n => find_node n k r) r' o) /\ (exists r' o, returns (fun n => get_all_nodes n od r) r' o) /\ (exists r' o, returns (fun n => get_all_children_of_page n od k r) r' o).
Proof.
  intros f r k od (RO & RS & T) R V. destruct (opened_used f r R RO RS) as (cd & od0 & r0 & F & A & _). pose proof (used_fin f cd od0 _ _ r0 r T F A) as FI.
  split; [now apply (find_returns_fin f)|]. split; now apply (children_return_fin f).
Qed.
Print Assumptions C46_terminates.
Theorem C46_well_formed_files_are_finite : forall f hs, copc_pages f hs -> Z.of_nat (length f) < 2 ^ 63 -> copc_finite f.
Proof. intros f hs S L. destruct (pages_root f hs S L) as (A & B). split; [exact A|]. split; [exact B|]. eapply hierarchy_finite; eauto. Qed.
Print Assumptions C46_well_formed_files_are_finite.
Example C46_nonvacuous : exists r, copc_finite fine_file /\ reader_on fine_file r.
Proof. destruct fine_ok as (S & L & r & _ & R). exists r. split; [eapply C46_well_formed_files_are_finite; eauto|exact R]. Qed.

(* a page entry that refers to the page it is stored in: following references does not end *)
Definition self_draft : draft := [(root_key, [inl (mkEntry c0 (Z.of_nat (length cube_file)) 32 (-1))])].
Definition self_file : bytes := Eval vm_compute in draft_file cube_file self_draft.
Definition self_off : Z := Eval vm_compute in Z.of_nat (length cube_file).
(* the newest page object is for c0, unread, and will read the same entry *)
Definition unread (r : reader) (i : nat) (p : rpage) : Prop :=
  r_data r = self_file /\ r_isfile r = true /\ r_fail r = false /\ r_nodes r = [] /\ nth_error (r_pages r) i = Some p /\
  rp_off p = self_off /\ rp_size p = 32 /\ rp_loaded p = false /\ rp_subs p = [] /\ rp_nodes p = [] /\ key_valid (rp_key p) = true.
Lemma unread_step r i p : unread r i p -> exists r' p', read_and_parse i r = (r', Ok tt) /\ nth_error (r_pages r') i = Some p' /\ rp_loaded p' = true /\
  rp_key p' = rp_key p /\ rp_subs p' = [length (r_pages r)] /\ rp_nodes p' = [] /\ mget c0 (r_seen r') = Some (length (r_pages r)) /\
  unread r' (length (r_pages r)) (new_rpage c0 self_off 32).
Proof.
  intros (D & IF & F & N & P & O & SZ & LD & SU & NO & KV). unfold read_and_parse. rewrite P. unfold read_page. rewrite P.
  assert (V : rpage_valid p = true) by (unfold rpage_valid; rewrite O, SZ, KV, LD; reflexivity). rewrite V. cbn [negb]. unfold seek. rewrite F, IF, D, O.
  assert (SE : with_fail (seek_fails true self_file self_off) r = r) by (destruct r; cbn in *; subst; vm_compute seek_fails; reflexivity). rewrite SE. unfold rest_at. rewrite F, D, SZ.
  assert (RE : read_entries (Z.to_nat (32 / 32)) (skipn (Z.to_nat self_off) self_file) = (false, Ok [mkEntry c0 self_off 32 (-1)])) by (vm_compute; reflexivity). rewrite RE.
  cbn [fold_left]. unfold add_entry. change (entry_is_page (mkEntry c0 self_off 32 (-1))) with true. cbn [with_pages r_pages with_fail r_data r_isfile r_fail r_cfg r_seen r_nodes e_key e_offset e_size].
  cbn [orb]. rewrite upd_nth_length. set (m := length (r_pages r)). assert (IL : (i < m)%nat) by (apply nth_error_Some; congruence).
  eexists. exists (add_subpage m (set_loaded p)). split; [reflexivity|]. cbn [r_pages r_seen].
  assert (G1 : nth_error (upd_nth i (add_subpage m) (upd_nth i set_loaded (r_pages r) ++ [new_rpage c0 self_off 32])) i = Some (add_subpage m (set_loaded p))).
  { rewrite upd_nth_get, Nat.eqb_refl, nth_error_app1 by (rewrite upd_nth_length; exact IL). rewrite upd_nth_get, Nat.eqb_refl, P. reflexivity. }
  assert (G2 : nth_error (upd_nth i (add_subpage m) (upd_nth i set_loaded (r_pages r) ++ [new_rpage c0 self_off 32])) m = Some (new_rpage c0 self_off 32)).
  { rewrite upd_nth_get. destruct (Nat.eqb_spec m i); [lia|]. rewrite nth_error_app2 by (rewrite upd_nth_length; reflexivity). rewrite upd_nth_length. fold m. rewrite Nat.sub_diag. reflexivity. }
  split; [exact G1|]. unfold add_subpage, set_loaded. cbn [rp_loaded rp_key rp_subs rp_nodes]. rewrite SU, NO.
  repeat (split; [reflexivity|]).
  unfold unread. cbn [r_data r_isfile r_fail r_nodes r_pages]. repeat (split; [assumption|]). split; [reflexivity|]. split; [exact N|]. split; [exact G2|]. repeat split; reflexivity.
Qed.
Lemma find_never n : forall r i p, unread r i p -> mget c0 (r_seen r) = Some i -> find_node n c0 r = None.
Proof.
  induction n as [|n IH]; intros r i p U S; [reflexivity|]. pose proof U as (_ & _ & _ & N & P & _ & _ & LD & _). cbn [find_node]. rewrite N. cbn [mget].
  assert (Q : nearest_seen (get_parents true c0) (r_seen r) = Some i) by (change (get_parents true c0) with [c0; root_key]; cbn [nearest_seen]; now rewrite S). rewrite Q, P, LD.
  destruct (unread_step r i p U) as (r' & p' & E & _ & _ & _ & _ & _ & S' & U'). rewrite E. cbn [and_then]. eapply IH; eauto.
Qed.
Lemma load_never od n : visits_all od -> forall r i p, unread r i p -> load_pages n od i r = None.
Proof.
  intros V. induction n as [|n IH]; intros r i p U; [reflexivity|]. destruct (unread_step r i p U) as (r' & p' & E & P' & _ & _ & SU & _ & _ & U'). destruct U as (_ & _ & _ & _ & P & O & SZ & LD & _ & _ & KV). cbn [load_pages]. rewrite P.
  assert (RV : rpage_valid p = true) by (unfold rpage_valid; rewrite O, SZ, KV, LD; reflexivity). rewrite RV, LD. cbn [negb]. rewrite E. cbn [and_then]. rewrite P', SU.
  destruct V as (V & _). specialize (V (rp_key p') [length (r_pages r)]). apply Permutation_sym, Permutation_length_1_inv in V. rewrite V. cbn [each_call]. now rewrite (IH _ _ _ U').
Qed.
Theorem C46_self_reference_refuted : exists f r k, (forall off size, off = copc_root_offset f -> size = copc_root_size f -> ~ finite_tree f off size) /\ open_reader true f = Ok r /\ reader_on f r /\
  diverges (fun n => find_node n k r) /\ forall od, visits_all od -> diverges (fun n => get_all_nodes n od r).
Proof.
  destruct (opens_ok self_file ltac:(vm_compute; reflexivity)) as (r & O & R). exists self_file, r, c0.
  assert (FR : fresh_reader self_file self_off 32 r) by (apply (opened_fields true self_file r O); vm_compute; intuition discriminate).
  assert (D : forall od, visits_all od -> diverges (fun n => get_all_nodes n od r)).
  { intros od V n. destruct FR as (A & B & C & D & E). destruct n as [|n]; [reflexivity|]. unfold get_all_nodes, get_all_children_of_page. change (key_valid root_key) with true. cbn [negb].
    assert (U : unread r 0 (new_rpage root_key self_off 32)) by (unfold unread; rewrite A, B, C, E; vm_compute in O; injection O as <-; repeat split; reflexivity).
    cbn [find_node]. rewrite E. cbn [mget]. change (get_parents true root_key) with [root_key]. cbn [nearest_seen]. rewrite D. cbn [mget]. change (key_eqb root_key root_key) with true. cbv iota. rewrite C. cbn [nth_error rp_loaded new_rpage].
    destruct (unread_step r 0 _ U) as (r' & p' & E' & P' & L' & _ & SU & _ & S' & U'). rewrite E'. cbn [and_then].
    assert (S0 : mget root_key (r_seen r') = Some 0%nat) by (clear - O E'; vm_compute in O; injection O as <-; vm_compute in E'; injection E' as <-; reflexivity).
    assert (N' : r_nodes r' = []) by (destruct U' as (_ & _ & _ & X & _); exact X).
    destruct n as [|n]; [reflexivity|]. cbn [find_node]. rewrite N'. cbn [mget]. change (get_parents true root_key) with [root_key]. cbn [nearest_seen]. rewrite S0, P', L'. cbn [and_then]. rewrite S0. generalize (S n) as m. intros m.
    cbn [load_pages]. rewrite P'. assert (RV : rpage_valid p' = true) by (clear - O E' P'; vm_compute in O; injection O as <-; vm_compute in E'; injection E' as <-; vm_compute in P'; injection P' as <-; reflexivity).
    rewrite RV, L'. cbn [negb and_then]. rewrite P', SU. pose proof V as (V1 & _). specialize (V1 (rp_key p') [length (r_pages r)]). apply Permutation_sym, Permutation_length_1_inv in V1. rewrite V1. cbn [each_call].
    now rewrite (load_never od m V r' (length (r_pages r)) _ U'). }
  assert (FD : diverges (fun n => find_node n c0 r)).
  { intros n. destruct FR as (A & B & C & DD & E). destruct n as [|n]; [reflexivity|]. assert (U : unread r 0 (new_rpage root_key self_off 32)) by (unfold unread; rewrite A, B, C, E; vm_compute in O; injection O as <-; repeat split; reflexivity).
    cbn [find_node]. rewrite E. cbn [mget]. change (get_parents true c0) with [c0; root_key]. cbn [nearest_seen]. rewrite DD. cbn [mget]. change (key_eqb root_key c0) with false. change (key_eqb root_key root_key) with true. change (key_eqb c0 root_key) with false. cbv iota. rewrite C. cbn [nth_error rp_loaded new_rpage].
    destruct (unread_step r 0 _ U) as (r' & p' & E' & _ & _ & _ & _ & _ & S' & U'). rewrite E'. cbn [and_then]. eapply find_never; eauto. }
  split; [|split; [exact O|split; [exact R|split; [exact FD|exact D]]]].
  intros off size -> -> T. assert (X : copc_finite self_file) by (split; [|split; [|exact T]]; vm_compute; intuition discriminate).
  destruct (C46_terminates self_file r c0 in_order X R in_order_all) as ((r' & o & n0 & Q) & _). specialize (Q n0 (Nat.le_refl _)). now rewrite (FD n0) in Q.
Qed.
Print Assumptions C46_self_reference_refuted.

(* ---- C47 ---- *)
Lemma tree_root f hs : copc_damaged f hs -> Z.of_nat (length f) < 2 ^ 63 -> 0 <= copc_root_offset f < 2 ^ 63 /\ 0 <= copc_root_size f < 2 ^ 31.
Proof.
  intros S L. destruct (pt_root _ _ _ _ S) as (r & I & _ & <- & <-). destruct (pt_page _ _ _ _ S r I) as (A & B & C & D & _). unfold INT32_MAX in C. lia.
Qed.
Lemma on_tree f hs r : copc_damaged f hs -> Z.of_nat (length f) < 2 ^ 63 -> reader_on f r -> rinv f hs r /\ r_fail r = false.
Proof.
  intros S L R. destruct (tree_root f hs S L) as (A & B). destruct (opened_used f r R A B) as (cd & od & r0 & F & U & G). split; [|exact G]. now apply (used_rinv f _ _ hs S L cd od r0 r).
Qed.
(* loading a page either succeeds or leaves the Reader as it was, but for the stream's flags *)
Theorem C47_no_side_effects : forall i r r', read_and_parse i r = (r', Throw) -> exists b, r' = with_fail b r.
Proof.
  intros i r r'. unfold read_and_parse. destruct (nth_error (r_pages r) i) as [p|] eqn:P; [|discriminate]. unfold read_page. rewrite P. destruct (rpage_valid p); cbn [negb].
  - destruct (flags_seek (rp_off p) r) as (b & ->). destruct (read_entries _ _) as (fl, [l| |]) eqn:E; intros Q; try discriminate. injection Q as <-. exists (b || fl). destruct r; reflexivity.
  - intros [= <-]. exists (r_fail r). destruct r; reflexivity.
Qed.
Print Assumptions C47_no_side_effects.
(* FindNode on a file with damaged pages, whatever was asked before (and threw): nodes of undamaged pages
   are found; a key in a damaged page throws; other keys are not found *)
Theorem C47_find : forall f hs r k, copc_damaged f hs -> Z.of_nat (length f) < 2 ^ 63 -> reader_on f r ->
  exists r' o, returns (fun n => find_node n k r) r' o /\ r_fail r' = false /\ (forall n, stored_node hs k n -> o = Ok n) /\
    ((forall n, ~ stored_node hs k n) -> (blocked hs k -> o = Throw) /\ (~ blocked hs k -> o = Ok invalid_node)).
Proof.
  intros f hs r k S L R. destruct (on_tree f hs r S L R) as (V & G). destruct (find_returns f _ _ hs S L r k (depth_bound hs k) V G (Nat.le_refl _)) as (r' & o & E & _ & F & _ & (A & B) & _).
  exists r', o. split; [|auto]. exists (depth_bound hs k). intros n N. exact (find_mono k _ n r _ N E).
Qed.
Print Assumptions C47_find.
(* enumerating nodes throws when a page is damaged *)
Theorem C47_all_nodes : forall f hs od r, copc_damaged f hs -> Z.of_nat (length f) < 2 ^ 63 -> visits_all od -> reader_on f r ->
  exists r' o, returns (fun n => get_all_nodes n od r) r' o /\ r_fail r' = false /\
    ((exists i, In i hs /\ intact i = false) -> o = Throw) /\ ((forall i, In i hs -> intact i = true) -> exists l, o = Ok l /\ exactly l (stored_nodes hs)).
Proof.
  intros f hs od r S L V R. destruct (on_tree f hs r S L R) as (I & G). destruct (root_page f _ _ hs S) as (h & H & K).
  destruct (children_page f _ _ hs S L od h r (depth_bound hs (pi_key h)) V H I G (Nat.le_refl _)) as (r' & o & E & I' & F & _ & C).
  { left. rewrite K. now apply (root_seen f hs). }
  rewrite K in *. exists r', o. split; [exists (depth_bound hs root_key); intros n N; exact (children_mono od root_key _ n r _ N E)|]. split; [exact F|].
  destruct C as [(-> & j & J & _ & N)|(l & -> & X & A)]; split.
  - auto.
  - intros Q. rewrite (Q j J) in N. discriminate.
  - intros (j & J & N). exfalso. rewrite (loaded_intact f _ _ hs S r' j I' J) in N; [discriminate|]. apply A; [exact J|]. now apply (page_in_root f _ _ hs S).
  - intros Q. exists l. split; [reflexivity|]. eapply exactly_ext; [|exact X]. intros n. split.
    + intros (i & e & I1 & I2 & I3 & I4 & ->). exists i, e. split; [exact I1|]. split; [auto|]. auto.
    + intros (i & e & I1 & I2 & I3 & I4 & I5 & ->). exists i, e. split; [exact I1|]. split; [now apply (page_in_root f _ _ hs S)|]. auto.
Qed.
Print Assumptions C47_all_nodes.
Definition bad_draft : draft := [(root_key, [inr c0; inr c1; inl (mkEntry root_key 1000 20 4)]); (c0, [inl (mkEntry d0 1020 20 5); inl (mkEntry d1 1020 (-7) 5)]); (c1, [inl (mkEntry c1 1020 20 5)])].
Definition bad_file : bytes := Eval vm_compute in draft_file cube_file bad_draft.
Example C47_nonvacuous : let hs := draft_pages cube_file bad_draft in copc_damaged bad_file hs /\ Z.of_nat (length bad_file) < 2 ^ 63 /\ (exists r, reader_on bad_file r) /\
  (exists i, In i hs /\ intact i = false) /\ blocked hs d0 /\ (exists n, stored_node hs c1 n).
Proof.
  cbv zeta. split; [apply tree_b_ok; vm_compute; reflexivity|]. split; [vm_compute; reflexivity|]. split; [destruct (opens_ok bad_file ltac:(vm_compute; reflexivity)) as (r & _ & R); eauto|].
  split; [exists (nth 1 (draft_pages cube_file bad_draft) (mkPI root_key 0 0 [])); vm_compute; auto|].
  split; [exists (nth 1 (draft_pages cube_file bad_draft) (mkPI root_key 0 0 [])); vm_compute; auto|].
  eexists. exists (nth 2 (draft_pages cube_file bad_draft) (mkPI root_key 0 0 [])), (mkEntry c1 1020 20 5). vm_compute. intuition.
Qed.

(* ---- C48 ---- *)
Theorem C48_depth : forall f hs od r res maxd, copc_pages f hs -> Z.of_nat (length f) < 2 ^ 63 -> visits_all od -> reader_on f r -> deepest (stored_nodes hs) maxd ->
  exists r' o, returns (fun n => get_depth_at_resolution n od res r) r' o /\ depth_is (i_spacing (c_info (r_cfg r))) res maxd o.
Proof.
  intros f hs od r res maxd S L V R D. destruct (depth_good f _ _ hs S L od res r V (on_good f hs r S L R) maxd D) as (r' & o & A & _ & _ & B). eauto.
Qed.
Print Assumptions C48_depth.
Theorem C48_max_depth : forall f hs od r, copc_pages f hs -> Z.of_nat (length f) < 2 ^ 63 -> visits_all od -> reader_on f r ->
  exists r' d, returns (fun n => get_max_depth n od r) r' (Ok d) /\ deepest (stored_nodes hs) d.
Proof.
  intros f hs od r S L V R. destruct (deepest_exists f _ _ hs S) as (d & D). destruct (C48_depth f hs od r (f64_of_Z (-1)) d S L V R D) as (r' & o & A & B & _).
  exists r', d. split; [|exact D]. rewrite (B eq_refl) in A. exact A.
Qed.
Print Assumptions C48_max_depth.
Example C48_nonvacuous : exists r, copc_pages fine_file fine_pages /\ Z.of_nat (length fine_file) < 2 ^ 63 /\ visits_all in_order /\ reader_on fine_file r /\ deepest (stored_nodes fine_pages) 3 /\
  flt f0 (i_spacing (c_info (r_cfg r))) = false.
Proof.
  destruct fine_ok as (S & L & r & O & R). exists r. repeat (split; [assumption || apply in_order_all|]). split; [|assert (E : match open_reader true fine_file with Ok r => flt f0 (i_spacing (c_info (r_cfg r))) | _ => true end = false) by (vm_compute; reflexivity); now rewrite O in E]. split.
  - intros n (i & e & I & _ & E & N & _ & ->). cbn in I. destruct I as [<-|[<-|[<-|[]]]]; cbn in E; repeat (destruct E as [<-|E]; [vm_compute; discriminate|]); destruct E.
  - right. exists (mkNode (mkEntry e0 1080 20 7) d0). split; [|reflexivity]. eexists (nth 2 fine_pages (mkPI root_key 0 0 [])), (mkEntry e0 1080 20 7). vm_compute. intuition.
Qed.

(* ---- C49 ---- *)
Theorem C49_nodes_at_resolution : forall f hs od r res r1 d, copc_pages f hs -> Z.of_nat (length f) < 2 ^ 63 -> visits_all od -> reader_on f r ->
  returns (fun n => get_depth_at_resolution n od res r) r1 (Ok d) ->
  (exists r' l, returns (fun n => get_nodes_at_resolution n od res r) r' (Ok l) /\ exactly l (fun n => stored_nodes hs n /\ kd (n_key n) = d)) /\
  (exists r' l, returns (fun n => get_nodes_within_resolution n od res r) r' (Ok l) /\ exactly l (fun n => stored_nodes hs n /\ kd (n_key n) <= d)).
Proof.
  intros f hs od r res r1 d S L V R D. pose proof (on_good f hs r S L R) as G. split.
  - destruct (select_good f _ _ hs S L (fun _ d n => kd (n_key n) =? d) od res r V G r1 d D) as (r' & l & A & _ & _ & X). exists r', l. split; [exact A|]. eapply exactly_ext; [|exact X]. intros n. cbv beta. now rewrite Z.eqb_eq.
  - destruct (select_good f _ _ hs S L (fun _ d n => kd (n_key n) <=? d) od res r V G r1 d D) as (r' & l & A & _ & _ & X). exists r', l. split; [exact A|]. eapply exactly_ext; [|exact X]. intros n. cbv beta. now rewrite Z.leb_le.
Qed.
Print Assumptions C49_nodes_at_resolution.
Theorem C49_all_nodes_without_limit : forall f hs od r res, copc_pages f hs -> Z.of_nat (length f) < 2 ^ 63 -> visits_all od -> reader_on f r -> fle res f0 = true ->
  exists r' l, returns (fun n => get_nodes_within_resolution n od res r) r' (Ok l) /\ exactly l (stored_nodes hs).
Proof.
  intros f hs od r res S L V R N. destruct (deepest_exists f _ _ hs S) as (d & D). destruct (C48_depth f hs od r res d S L V R D) as (r1 & o & A & B & _). rewrite (B N) in A.
  destruct (C49_nodes_at_resolution f hs od r res r1 d S L V R A) as (_ & r' & l & E & X). exists r', l. split; [exact E|]. eapply exactly_ext; [|exact X]. intros n. cbv beta. split; [tauto|]. intros M. split; [exact M|]. now apply D.
Qed.
Print Assumptions C49_all_nodes_without_limit.
Example C49_nonvacuous : exists r r1, copc_pages fine_file fine_pages /\ Z.of_nat (length fine_file) < 2 ^ 63 /\ visits_all in_order /\ reader_on fine_file r /\
  returns (fun n => get_depth_at_resolution n in_order f0 r) r1 (Ok 3) /\ fle f0 f0 = true.
Proof.
  destruct C48_nonvacuous as (r & S & L & V & R & D & _). destruct (C48_depth fine_file fine_pages in_order r f0 3 S L V R D) as (r1 & o & A & B & _). rewrite (B eq_refl) in A. exists r, r1. auto 8.
Qed.

(* ---- C50 ---- *)
Theorem C50_boxes : forall f hs od r b res r1 d, copc_pages f hs -> Z.of_nat (length f) < 2 ^ 63 -> visits_all od -> reader_on f r ->
  returns (fun n => get_depth_at_resolution n od res r) r1 (Ok d) ->
  let box n := node_box (c_hdr (r_cfg r)) n in
  (exists r' l, returns (fun n => get_nodes_within_box b n od res r) r' (Ok l) /\ exactly l (fun n => stored_nodes hs n /\ kd (n_key n) <= d /\ box_within (box n) b = true)) /\
  (exists r' l, returns (fun n => get_nodes_intersect_box b n od res r) r' (Ok l) /\ exactly l (fun n => stored_nodes hs n /\ kd (n_key n) <= d /\ box_intersects (box n) b = true)).
Proof.
  intros f hs od r b res r1 d S L V R D box. pose proof (on_good f hs r S L R) as G. split.
  - destruct (select_good f _ _ hs S L (fun h d n => key_within (n_key n) (h_min h) (h_max h) b && (kd (n_key n) <=? d)) od res r V G r1 d D) as (r' & l & A & _ & _ & X).
    exists r', l. split; [exact A|]. eapply exactly_ext; [|exact X]. intros n. cbv beta. rewrite andb_true_iff, Z.leb_le. unfold key_within, box, node_box. tauto.
  - destruct (select_good f _ _ hs S L (fun h d n => key_intersects (n_key n) (h_min h) (h_max h) b && (kd (n_key n) <=? d)) od res r V G r1 d D) as (r' & l & A & _ & _ & X).
    exists r', l. split; [exact A|]. eapply exactly_ext; [|exact X]. intros n. cbv beta. rewrite andb_true_iff, Z.leb_le. unfold key_intersects, box, node_box. tauto.
Qed.
Print Assumptions C50_boxes.
(* what GetNodesWithinBox returns, GetNodesIntersectBox returns too (C22_binary64_boxes_ordered tells when node boxes are ordered) *)
From Verif Require SpecGeom ProofGeom.
Theorem C50_within_subset_of_intersect : forall f hs od r b res r1 l1 r2 l2 r3 d, copc_pages f hs -> Z.of_nat (length f) < 2 ^ 63 -> visits_all od -> reader_on f r ->
  returns (fun n => get_depth_at_resolution n od res r) r3 (Ok d) -> (forall n, stored_nodes hs n -> SpecGeom.ordered (node_box (c_hdr (r_cfg r)) n)) ->
  returns (fun n => get_nodes_within_box b n od res r) r1 (Ok l1) -> returns (fun n => get_nodes_intersect_box b n od res r) r2 (Ok l2) -> incl l1 l2.
Proof.
  intros f hs od r b res r1 l1 r2 l2 r3 d S L V R D O (n1 & E1) (n2 & E2). destruct (C50_boxes f hs od r b res r3 d S L V R D) as ((s1 & m1 & (k1 & F1) & X1) & (s2 & m2 & (k2 & F2) & X2)).
  assert (m1 = l1) as ->. { specialize (E1 (Nat.max n1 k1) (Nat.le_max_l _ _)). specialize (F1 (Nat.max n1 k1) (Nat.le_max_r _ _)). congruence. }
  assert (m2 = l2) as ->. { specialize (E2 (Nat.max n2 k2) (Nat.le_max_l _ _)). specialize (F2 (Nat.max n2 k2) (Nat.le_max_r _ _)). congruence. }
  intros n I. apply X1 in I as (I1 & I2 & I3). apply X2. split; [exact I1|]. split; [exact I2|]. now apply ProofGeom.within_intersects; [apply O|].
Qed.
Print Assumptions C50_within_subset_of_intersect.
Example C50_nonvacuous : exists r r1, copc_pages fine_file fine_pages /\ Z.of_nat (length fine_file) < 2 ^ 63 /\ visits_all in_order /\ reader_on fine_file r /\
  returns (fun n => get_depth_at_resolution n in_order f0 r) r1 (Ok 3) /\ (forall n, stored_nodes fine_pages n -> SpecGeom.ordered (node_box (c_hdr (r_cfg r)) n)) /\
  (exists n b, stored_nodes fine_pages n /\ box_within (node_box (c_hdr (r_cfg r)) n) b = true).
Proof.
  destruct fine_ok as (S & L & r & O & R).
  destruct (C48_depth fine_file fine_pages in_order r f0 3 S L in_order_all R) as (r2 & o & A & B & _); [destruct C48_nonvacuous as (_ & _ & _ & _ & _ & D & _); exact D|]. rewrite (B eq_refl) in A.
  exists r, r2. repeat (split; [assumption || apply in_order_all|]).
  assert (E : match open_reader true fine_file with Ok r => forallb (fun n => ordered_b (node_box (c_hdr (r_cfg r)) n)) (node_list fine_pages) &&
      box_within (node_box (c_hdr (r_cfg r)) (mkNode (mkEntry e0 1080 20 7) d0)) (node_box (c_hdr (r_cfg r)) (mkNode (mkEntry c0 1040 20 6) c0)) | _ => false end = true) by (vm_compute; reflexivity).
  rewrite O in E. apply andb_prop in E as (E1 & E2). split.
  - intros n N. apply ordered_b_ok. exact (all_nodes_ok _ _ E1 n N).
  - exists (mkNode (mkEntry e0 1080 20 7) d0). eexists. split; [|exact E2]. eexists (nth 2 fine_pages (mkPI root_key 0 0 [])), (mkEntry e0 1080 20 7). vm_compute. intuition.
Qed.
