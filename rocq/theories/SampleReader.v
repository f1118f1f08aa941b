(* SampleReader.v - concrete files, used to show that the theorems about Reader apply and where they do not *)
From Verif Require Import Base BaseFacts ModelFloat ModelKey ModelGeom ModelEntry ModelPoint ModelPoints ModelHeader ModelVlr ModelExtents ModelConfig
  ModelStream ModelWriter ModelReader SpecKey SpecPoint SpecConfig SpecHeader SpecWriter SpecLaz SpecFile SpecHier SpecReader SpecData ProofKey SampleWriter ProofReader3 ProofData.

(* ---- decidable versions of the specifications ---- *)
Fixpoint nodup_keys (l : list key) : bool := match l with [] => true | k :: r => negb (existsb (key_eqb k) r) && nodup_keys r end.
Lemma nodup_keys_ok l : nodup_keys l = true -> NoDup l.
Proof.
  induction l as [|k l IH]; [constructor|]. cbn. intros H. apply andb_prop in H as (H & R). constructor; [|auto]. intros I.
  assert (E : existsb (key_eqb k) l = true) by (apply existsb_exists; exists k; split; [exact I|now apply key_eqb_eq]). now rewrite E in H.
Qed.
Definition page_at (off size : Z) (i : page_info) : bool := key_eqb (pi_key i) root_key && (pi_off i =? off) && (pi_size i =? size).
Definition page_stored (f : bytes) (i : page_info) : bool :=
  (0 <=? pi_off i) && (pi_size i =? 32 * Z.of_nat (length (pi_ents i))) && (pi_size i <=? INT32_MAX) && (pi_off i + pi_size i <=? Z.of_nat (length f)) &&
  same_bytes (bytes_at (pi_off i) (pi_size i) f) (flat_map entry_pack (pi_ents i)).
Definition same_page (e : entry) (j : page_info) : bool := key_eqb (pi_key j) (e_key e) && (pi_off j =? e_offset e) && (pi_size j =? e_size e).
Definition nearest_page (hs : list page_info) (i : page_info) (e : entry) : bool :=
  forallb (fun q => negb (child_of (e_key e) (pi_key q)) || key_eqb (pi_key q) (e_key e) || (kd (pi_key q) <=? kd (pi_key i))) hs.
Definition sub_ok (strict : bool) (hs : list page_info) (i : page_info) (e : entry) : bool :=
  negb (key_eqb (e_key e) (pi_key i)) && existsb (same_page e) hs && (negb strict || nearest_page hs i e).
Definition tree_b (strict : bool) (f : bytes) (off size : Z) (hs : list page_info) : bool :=
  nodup_keys (map pi_key hs) && existsb (page_at off size) hs && forallb (page_stored f) hs && forallb (fun i => forallb wf_entry (pi_ents i)) hs &&
  forallb (fun i => negb (intact i) || forallb (fun e => child_of (e_key e) (pi_key i) && (negb (is_sub e) || sub_ok strict hs i e)) (pi_ents i)) hs &&
  nodup_keys (map e_key (node_entries (filter intact hs))) && nodup_keys (map e_key (sub_entries (filter intact hs))) &&
  forallb (fun j => key_eqb (pi_key j) root_key || existsb (fun i => intact i && existsb (fun e => is_sub e && key_eqb (e_key e) (pi_key j)) (pi_ents i)) hs) hs.
Section Tree.
  Variables (s : bool) (f : bytes) (off size : Z) (hs : list page_info).
  Hypothesis T : tree_b s f off size hs = true.
  Let parts : nodup_keys (map pi_key hs) = true /\ existsb (page_at off size) hs = true /\ forallb (page_stored f) hs = true /\ forallb (fun i => forallb wf_entry (pi_ents i)) hs = true /\
    forallb (fun i => negb (intact i) || forallb (fun e => child_of (e_key e) (pi_key i) && (negb (is_sub e) || sub_ok s hs i e)) (pi_ents i)) hs = true /\
    nodup_keys (map e_key (node_entries (filter intact hs))) = true /\ nodup_keys (map e_key (sub_entries (filter intact hs))) = true /\
    forallb (fun j => key_eqb (pi_key j) root_key || existsb (fun i => intact i && existsb (fun e => is_sub e && key_eqb (e_key e) (pi_key j)) (pi_ents i)) hs) hs = true.
  Proof. unfold tree_b in T. repeat (apply andb_prop in T as (T & ?)). tauto. Qed.
  Lemma tb_root : exists r, In r hs /\ pi_key r = root_key /\ pi_off r = off /\ pi_size r = size.
  Proof.
    destruct parts as (_ & E & _). apply existsb_exists in E as (r & I & E). unfold page_at in E. apply andb_prop in E as (E & E3). apply andb_prop in E as (E1 & E2).
    exists r. apply key_eqb_eq in E1. apply Z.eqb_eq in E2, E3. auto.
  Qed.
  Lemma tb_page i : In i hs -> 0 <= pi_off i /\ pi_size i = 32 * Z.of_nat (length (pi_ents i)) /\ pi_size i <= INT32_MAX /\
    pi_off i + pi_size i <= Z.of_nat (length f) /\ bytes_at (pi_off i) (pi_size i) f = flat_map entry_pack (pi_ents i).
  Proof.
    intros I. destruct parts as (_ & _ & E & _). rewrite forallb_forall in E. apply E in I. unfold page_stored in I. repeat (apply andb_prop in I as (I & ?)).
    rewrite Z.leb_le in *. rewrite Z.eqb_eq in *. split; [assumption|]. split; [assumption|]. split; [assumption|]. split; [assumption|]. now apply same_bytes_eq.
  Qed.
  Lemma tb_wf i e : In i hs -> In e (pi_ents i) -> wf_entry e = true.
  Proof. intros I J. destruct parts as (_ & _ & _ & E & _). rewrite forallb_forall in E. specialize (E i I). rewrite forallb_forall in E. auto. Qed.
  Lemma tb_ent i e : In i hs -> intact i = true -> In e (pi_ents i) -> child_of (e_key e) (pi_key i) = true /\ (is_sub e = true -> sub_ok s hs i e = true).
  Proof.
    intros I N J. destruct parts as (_ & _ & _ & _ & E & _). rewrite forallb_forall in E. specialize (E i I). rewrite N in E. cbn [negb orb] in E. rewrite forallb_forall in E.
    specialize (E e J). apply andb_prop in E as (A & B). split; [exact A|]. intros S. now rewrite S in B.
  Qed.
  Lemma tb_sub i e : In i hs -> intact i = true -> In e (pi_ents i) -> is_sub e = true -> e_key e <> pi_key i /\
    exists j, In j hs /\ pi_key j = e_key e /\ pi_off j = e_offset e /\ pi_size j = e_size e /\
      (s = true -> forall q, In q hs -> child_of (e_key e) (pi_key q) = true -> pi_key q = e_key e \/ kd (pi_key q) <= kd (pi_key i)).
  Proof.
    intros I N J S. destruct (tb_ent i e I N J) as (_ & A). specialize (A S). unfold sub_ok in A. apply andb_prop in A as (A & C). apply andb_prop in A as (A & B).
    split; [intros Q; apply key_eqb_eq in Q; now rewrite Q in A|]. apply existsb_exists in B as (j & J1 & J2). unfold same_page in J2. apply andb_prop in J2 as (J2 & J4). apply andb_prop in J2 as (J2 & J3).
    apply key_eqb_eq in J2. apply Z.eqb_eq in J3, J4. exists j. split; [exact J1|]. split; [exact J2|]. split; [exact J3|]. split; [exact J4|]. intros -> q Q1 Q2. cbn [negb orb] in C. unfold nearest_page in C.
    rewrite forallb_forall in C. specialize (C q Q1). rewrite Q2 in C. cbn [negb orb] in C. apply orb_prop in C as [C|C]; [left; now apply key_eqb_eq|right; now apply Z.leb_le].
  Qed.
  Lemma tb_up j : In j hs -> pi_key j <> root_key -> exists i e, In i hs /\ intact i = true /\ In e (pi_ents i) /\ is_sub e = true /\ e_key e = pi_key j.
  Proof.
    intros J N. destruct parts as (_ & _ & _ & _ & _ & _ & _ & E). rewrite forallb_forall in E. specialize (E j J). apply orb_prop in E as [E|E]; [apply key_eqb_eq in E; contradiction|].
    apply existsb_exists in E as (i & I & E). apply andb_prop in E as (E1 & E2). apply existsb_exists in E2 as (e & K & E2). apply andb_prop in E2 as (E2 & E3). apply key_eqb_eq in E3. exists i, e. auto 6.
  Qed.
  Lemma tb_nodup : NoDup (map pi_key hs) /\ NoDup (map e_key (node_entries (filter intact hs))) /\ NoDup (map e_key (sub_entries (filter intact hs))).
  Proof. destruct parts as (A & _ & _ & _ & _ & B & C & _). split; [|split]; now apply nodup_keys_ok. Qed.
End Tree.
Lemma tree_b_ok f off size hs : tree_b true f off size hs = true -> page_tree f off size hs.
Proof.
  intros T. destruct (tb_nodup _ _ _ _ _ T) as (A & B & C). constructor; auto.
  - eapply tb_root; eauto.
  - apply (tb_page _ _ _ _ _ T).
  - apply (tb_wf _ _ _ _ _ T).
  - intros i e I N J. now apply (tb_ent _ _ _ _ _ T).
  - intros i e I N J S. destruct (tb_sub _ _ _ _ _ T i e I N J S) as (X & j & J1 & J2 & J3 & J4 & J5). split; [exact X|]. exists j. auto 6.
  - apply (tb_up _ _ _ _ _ T).
Qed.
Lemma loose_b_ok f off size hs : tree_b false f off size hs = true -> forallb intact hs = true -> loose_hierarchy f off size hs.
Proof.
  intros T N. rewrite forallb_forall in N. destruct (tb_nodup _ _ _ _ _ T) as (A & B & C). rewrite filter_all in B, C by exact N. constructor; auto.
  - eapply tb_root; eauto.
  - apply (tb_page _ _ _ _ _ T).
  - intros i e I J. split; [eapply tb_wf; eauto|]. specialize (N i I). split; [|now apply (tb_ent _ _ _ _ _ T)]. unfold intact in N. rewrite forallb_forall in N. auto.
  - intros i e I J S. destruct (tb_sub _ _ _ _ _ T i e I (N i I) J S) as (X & j & J1 & J2 & J3 & J4 & J5). split; [exact X|]. exists j. auto 6.
  - intros j J K. destruct (tb_up _ _ _ _ _ T j J K) as (i & e & I & _ & E & S & Q). exists e. split; [|exact Q]. unfold sub_entries, all_entries. apply filter_In. split; [|exact S]. apply in_flat_map. eauto.
Qed.
Lemma hierarchy_b_ok f off size hs : tree_b true f off size hs = true -> forallb intact hs = true -> stored_hierarchy f off size hs.
Proof.
  intros T N. rewrite forallb_forall in N. destruct (tb_nodup _ _ _ _ _ T) as (A & B & C). rewrite filter_all in B, C by exact N. constructor; auto.
  - eapply tb_root; eauto.
  - apply (tb_page _ _ _ _ _ T).
  - intros i e I J. split; [eapply tb_wf; eauto|]. specialize (N i I). split; [|now apply (tb_ent _ _ _ _ _ T)]. unfold intact in N. rewrite forallb_forall in N. auto.
  - intros i e I J S. destruct (tb_sub _ _ _ _ _ T i e I (N i I) J S) as (X & j & J1 & J2 & J3 & J4 & J5). split; [exact X|]. exists j. auto 6.
  - intros j J K. destruct (tb_up _ _ _ _ _ T j J K) as (i & e & I & _ & E & S & Q). exists e. split; [|exact Q]. unfold sub_entries, all_entries. apply filter_In. split; [|exact S]. apply in_flat_map. eauto.
Qed.

(* ---- building files ---- *)
Definition put (off : Z) (b f : bytes) : bytes := firstn (Z.to_nat off) f ++ b ++ skipn (Z.to_nat off + length b) f.
(* an empty COPC file (format 7, one extra byte) *)
Definition empty_file : bytes := Eval vm_compute in match run_session SampleWriter.plain [] with Some (_, w) => file w | None => [] end.
(* with scale 1, bounds 0..8 x 0..8 x 0..8 or 0..8 x 0..1 x 0..1 *)
Definition one_to (n : Z) : bytes := enc_f64 (f64_of_Z n).
Definition cube_file : bytes := Eval vm_compute in
  put 131 (one_to 1 ++ one_to 1 ++ one_to 1) (put 179 (one_to 8 ++ one_to 0 ++ one_to 8 ++ one_to 0 ++ one_to 8 ++ one_to 0) empty_file).
Definition flat_file : bytes := Eval vm_compute in
  put 131 (one_to 1 ++ one_to 1 ++ one_to 1) (put 179 (one_to 8 ++ one_to 0 ++ one_to 1 ++ one_to 0 ++ one_to 1 ++ one_to 0) empty_file).
(* pages after the end of a file: an entry is a node, or the key of a page *)
Definition draft := list (key * list (entry + key)).
Fixpoint places (pos : Z) (l : draft) : list (key * (Z * Z)) :=
  match l with [] => [] | (k, es) :: r => (k, (pos, 32 * Z.of_nat (length es))) :: places (pos + 32 * Z.of_nat (length es)) r end.
Definition place_of (ps : list (key * (Z * Z))) (k : key) : Z * Z := match find (fun x => key_eqb (fst x) k) ps with Some (_, x) => x | None => (0, 0) end.
Definition resolve (ps : list (key * (Z * Z))) (x : entry + key) : entry :=
  match x with inl e => e | inr k => mkEntry k (fst (place_of ps k)) (snd (place_of ps k)) (-1) end.
Definition draft_pages (base : bytes) (l : draft) : list page_info :=
  let ps := places (Z.of_nat (length base)) l in
  map (fun x => mkPI (fst x) (fst (place_of ps (fst x))) (snd (place_of ps (fst x))) (map (resolve ps) (snd x))) l.
Definition draft_file (base : bytes) (l : draft) : bytes :=
  let ps := places (Z.of_nat (length base)) l in
  put 469 (enc_u64 (fst (place_of ps root_key)) ++ enc_u64 (snd (place_of ps root_key))) base ++ flat_map (fun i => flat_map entry_pack (pi_ents i)) (draft_pages base l).
(* opening such a file *)
Definition opens (f : bytes) : bool := match open_reader true f with Ok _ => true | _ => false end.
Lemma opens_ok f : opens f = true -> exists r, open_reader true f = Ok r /\ reader_on f r.
Proof.
  unfold opens. destruct (open_reader true f) as [r| |] eqn:E; [|discriminate..]. intros _. exists r. split; [reflexivity|].
  exists verbatim, (mkRO (fun _ l => l) (fun _ l => l) (fun l => l)), true, r. split; [exact E|]. split; [now exists 0%nat, []|].
  unfold open_reader in E. apply bind_ok in E as (b & _ & E). destruct (_ || _); [discriminate|]. apply bind_ok in E as (i & _ & E). apply bind_ok in E as (x & _ & E). apply bind_ok in E as (c & _ & E). now injection E as <-.
Qed.
Definition in_order : rorders := mkRO (fun _ l => l) (fun _ l => l) (fun l => l).
Lemma in_order_all : visits_all in_order.
Proof. unfold visits_all. cbn. auto. Qed.
(* results of calls with enough recursion *)
Lemma find_computed k r x : find_node 50 k r = Some x -> returns (fun n => find_node n k r) (fst x) (snd x).
Proof. intros E. exists 50%nat. intros n L. rewrite (ProofReader4.find_mono k 50 n r x L E). now destruct x. Qed.
Lemma children_computed od k r x : get_all_children_of_page 50 od k r = Some x -> returns (fun n => get_all_children_of_page n od k r) (fst x) (snd x).
Proof. intros E. exists 50%nat. intros n L. rewrite (ProofReader4.children_mono od k 50 n r x L E). now destruct x. Qed.
Lemma after_on f r qs r' fuel : reader_on f r -> ask_all verbatim in_order fuel qs r = Some r' -> r_fail r' = false -> open_reader true f = Ok r -> reader_on f r'.
Proof. intros _ A F O. exists verbatim, in_order, true, r. split; [exact O|]. split; [now exists fuel, qs|exact F]. Qed.
(* ---- decidable facts about the results of queries ---- *)
Definition test_after (f : bytes) (qs : list query) (t : reader -> reader -> bool) : bool :=
  match open_reader true f with
  | Ok r => match ask_all verbatim in_order 50 qs r with Some r' => negb (r_fail r') && t r r' | None => false end
  | _ => false
  end.
Lemma test_after_ok f qs t : test_after f qs t = true ->
  exists r r', open_reader true f = Ok r /\ reader_on f r /\ ask_all verbatim in_order 50 qs r = Some r' /\ reader_on f r' /\ t r r' = true.
Proof.
  unfold test_after. destruct (open_reader true f) as [r| |] eqn:O; [|discriminate..]. destruct (ask_all verbatim in_order 50 qs r) as [r'|] eqn:A; [|discriminate].
  intros H. apply andb_prop in H as (F & T). apply negb_true_iff in F. destruct (opens_ok f) as (r0 & O0 & R); [unfold opens; now rewrite O|]. assert (r0 = r) as -> by congruence.
  exists r, r'. split; [reflexivity|]. split; [exact R|]. split; [exact A|]. split; [now apply (after_on f r qs r' 50)|exact T].
Qed.
Definition key_dec (a b : key) : {a = b} + {a <> b}.
Proof. decide equality; apply Z.eq_dec. Defined.
Definition node_dec (a b : node) : {a = b} + {a <> b}.
Proof. decide equality; [apply key_dec|]. decide equality; try apply Z.eq_dec. apply key_dec. Defined.
Definition finds (k : key) (n : node) (r : reader) : bool :=
  match find_node 50 k r with Some (_, Ok m) => if node_dec m n then true else false | _ => false end.
Lemma finds_ok k n r : finds k n r = true -> exists s, returns (fun m => find_node m k r) s (Ok n).
Proof.
  unfold finds. destruct (find_node 50 k r) as [(s, [m| |])|] eqn:E; try discriminate. destruct (node_dec m n) as [->|]; [|discriminate]. intros _. exists s. exact (find_computed k r _ E).
Qed.
Definition lists (k : key) (l : list node) (r : reader) : bool :=
  match get_all_children_of_page 50 in_order k r with Some (_, Ok m) => if list_eq_dec node_dec m l then true else false | _ => false end.
Lemma lists_ok k l r : lists k l r = true -> exists s, returns (fun m => get_all_children_of_page m in_order k r) s (Ok l).
Proof.
  unfold lists. destruct (get_all_children_of_page 50 in_order k r) as [(s, [m| |])|] eqn:E; try discriminate. destruct (list_eq_dec node_dec m l) as [->|]; [|discriminate]. intros _. exists s. exact (children_computed in_order k r _ E).
Qed.
Definition node_list (hs : list page_info) : list node := flat_map (fun i => map (fun e => mkNode e (pi_key i)) (filter (fun e => negb (is_sub e)) (pi_ents i))) hs.
Lemma node_list_in hs n : stored_nodes hs n -> In n (node_list hs).
Proof.
  intros (i & e & I & _ & E & N & _ & ->). unfold node_list. apply in_flat_map. exists i. split; [exact I|]. apply in_map_iff. exists e. split; [reflexivity|]. apply filter_In. now rewrite N.
Qed.
Lemma node_list_in_rev hs n : forallb intact hs = true -> In n (node_list hs) -> stored_nodes hs n.
Proof.
  intros A I. unfold node_list in I. apply in_flat_map in I as (i & I & J). apply in_map_iff in J as (e & <- & J). apply filter_In in J as (J & N). rewrite forallb_forall in A.
  exists i, e. split; [exact I|]. split; [auto|]. split; [exact J|]. split; [now apply negb_true_iff|]. auto.
Qed.
Lemma all_nodes_ok hs t : forallb t (node_list hs) = true -> forall n, stored_nodes hs n -> t n = true.
Proof. intros A n N. rewrite forallb_forall in A. apply A. now apply node_list_in. Qed.
From Verif Require SpecGeom ProofGeom.
Definition ordered_b (b : box) : bool :=
  negb (fnan (x_min b)) && negb (fnan (y_min b)) && negb (fnan (z_min b)) && negb (fnan (x_max b)) && negb (fnan (y_max b)) && negb (fnan (z_max b)) &&
  fle (x_min b) (x_max b) && fle (y_min b) (y_max b) && fle (z_min b) (z_max b).
Lemma ordered_b_ok b : ordered_b b = true -> SpecGeom.ordered b.
Proof.
  unfold ordered_b. intros H. repeat (apply andb_prop in H as (H & ?)). rewrite negb_true_iff in *. unfold SpecGeom.ordered, SpecGeom.no_nan. split; [auto 6|]. rewrite <- !ProofGeom.fle_ext by assumption. auto.
Qed.
