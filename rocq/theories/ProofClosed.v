(* ProofClosed.v - queries on a closed FileReader *)
From Coq Require Import Permutation.
From Verif Require Import Base BaseFacts ModelFloat ModelKey ModelGeom ModelEntry ModelPoint ModelPoints ModelHeader ModelVlr ModelExtents ModelConfig
  ModelStream ModelWriter ModelReader ModelClosed SpecClosed SpecKey SpecPoint SpecWriter SpecHier SpecReader SpecData ProofStream ProofReader ProofReader2 ProofReader3 ProofReader4 ProofReader6.

Lemma ask_answer cd od fuel q r : ask cd od fuel q r = forget (answer_to cd od fuel q r).
Proof.
  assert (E : forall A (f : A -> answer) (x : call A), forget x = forget (wrap f x)) by (intros A f [(x, [?| |])|]; reflexivity).
  destruct q; cbn [ask answer_to]; apply E.
Qed.

(* unless it is undefined, what a closed reader answers is what the open one would *)
Definition agree {A} (c : ccall A) (o : call A) (r : reader) : Prop := forall x, c = Some x -> x <> UB -> o = Some (r, x).
Lemma agree_then {A B} (c : ccall A) (o : call A) r (f : A -> ccall B) (g : A -> reader -> call B) : agree c o r -> (forall a, agree (f a) (g a r) r) -> agree (cthen c f) (and_then o g) r.
Proof.
  intros H K x E N. destruct c as [[a| |]|]; cbn [cthen] in E; try discriminate.
  - rewrite (H (Ok a) eq_refl ltac:(discriminate)). cbn [and_then]. now apply K.
  - injection E as <-. rewrite (H Throw eq_refl ltac:(discriminate)). reflexivity.
  - injection E as <-. now elim N.
Qed.
Lemma agree_some {A} (x y : outcome A) r : (x <> UB -> y = x) -> agree (Some x) (Some (r, y)) r.
Proof. intros H z [= <-] N. now rewrite H. Qed.
Lemma agree_pair {A} (x : outcome A) y r : (x <> UB -> y = (r, x)) -> agree (Some x) (Some y) r.
Proof. intros H z [= <-] N. now rewrite H. Qed.
Lemma agree_same {A} (x : outcome A) r : agree (Some x) (Some (r, x)) r.
Proof. now apply agree_some. Qed.
Lemma agree_ub {A} (o : call A) r : agree (Some UB) o r.
Proof. intros z [= <-] N. now elim N. Qed.
Lemma agree_wrap {A} (f : A -> answer) c o r : agree c o r -> agree (cthen c (fun a => Some (Ok (f a)))) (wrap f o) r.
Proof.
  intros H x E N. destruct c as [[a| |]|]; cbn [cthen] in E; try discriminate; injection E as <-; [|..|now elim N]; (rewrite (H _ eq_refl) by discriminate); reflexivity.
Qed.
Lemma parse_agree i p r : nth_error (r_pages r) i = Some p -> agree (Some (closed_parse p)) (Some (read_and_parse i r)) r.
Proof.
  intros P. unfold closed_parse. destruct (rpage_valid p) eqn:V; cbn [negb]; [apply agree_ub|]. intros x [= <-] _. unfold read_and_parse, read_page. rewrite P, V. reflexivity.
Qed.
Lemma find_agree fuel k r : agree (closed_find fuel k r) (find_node fuel k r) r.
Proof.
  destruct fuel as [|f]; [intros x E; discriminate|]. cbn [closed_find find_node]. destruct (mget k (r_nodes r)); [apply agree_same|]. destruct (nearest_seen _ _) as [i|]; [|apply agree_same].
  destruct (nth_error (r_pages r) i) as [p|] eqn:P; [|apply agree_ub]. destruct (rp_loaded p); [apply agree_same|].
  unfold closed_parse. destruct (rpage_valid p) eqn:V; cbn [negb bind]; [apply agree_ub|]. intros x [= <-] _. rewrite (parse_agree i p r P Throw); [reflexivity|unfold closed_parse; now rewrite V|discriminate].
Qed.
Lemma each_agree {A B} (f : A -> ccall (list B)) g r : (forall a, agree (f a) (g a r) r) -> forall l, agree (each_closed f l) (each_call g l r) r.
Proof.
  intros H. induction l as [|a l IH]; [apply agree_same|]. cbn [each_closed each_call]. apply agree_then; [apply H|]. intros x. apply agree_then; [apply IH|]. intros y. apply agree_same.
Qed.
Lemma load_agree od r fuel : forall i, agree (closed_load fuel od r i) (load_pages fuel od i r) r.
Proof.
  induction fuel as [|f IH]; intros i; [intros x E; discriminate|]. cbn [closed_load load_pages]. destruct (nth_error (r_pages r) i) as [p|] eqn:P; [|apply agree_ub]. destruct (rpage_valid p) eqn:V; cbn [negb]; [|apply agree_same].
  destruct (rp_loaded p) eqn:L.
  - cbn [cthen and_then]. rewrite P. apply agree_then; [|intros l; apply agree_same]. apply each_agree. exact IH.
  - unfold closed_parse. rewrite V. cbn [negb cthen]. apply agree_ub.
Qed.
Lemma children_agree fuel od k r : agree (closed_children fuel od k r) (get_all_children_of_page fuel od k r) r.
Proof.
  unfold closed_children, get_all_children_of_page. destruct (key_valid k); cbn [negb]; [|apply agree_same]. apply agree_then; [apply find_agree|]. intros n. destruct (mget k (r_seen r)); [apply load_agree|apply agree_same].
Qed.
Lemma all_agree fuel od r : agree (closed_all_nodes fuel od r) (get_all_nodes fuel od r) r.
Proof. apply children_agree. Qed.
Lemma pages_agree fuel od r : agree (closed_page_list fuel od r) (get_page_list fuel od r) r.
Proof.
  unfold closed_page_list, get_page_list. apply agree_then; [apply all_agree|]. intros _u. destruct (_ (ro_seen od (map snd (r_seen r)))); apply agree_same.
Qed.
Lemma depth_agree fuel od res r : agree (closed_depth fuel od res r) (get_depth_at_resolution fuel od res r) r.
Proof. apply agree_then; [apply all_agree|]. intros l. apply agree_same. Qed.
Lemma select_agree cond fuel od res r : agree (closed_select cond fuel od res r) (select_nodes cond fuel od res r) r.
Proof. apply agree_then; [apply depth_agree|]. intros d. apply agree_then; [apply all_agree|]. intros l. apply agree_same. Qed.
Lemma data_agree {A} n (f : node -> reader -> reader * outcome A) r : (node_valid n = false -> f n r = (r, Throw)) -> agree (Some (closed_data n)) (Some (f n r)) r.
Proof. intros H. unfold closed_data. destruct (node_valid n); cbn [negb]; [apply agree_ub|]. rewrite H by reflexivity. apply agree_same. Qed.
Lemma data_invalid cd n r : node_valid n = false -> get_point_data_node cd n r = (r, Throw).
Proof. intros V. unfold get_point_data_node. now rewrite V. Qed.
Lemma compressed_invalid n r : node_valid n = false -> get_compressed_node n r = (r, Throw).
Proof. intros V. unfold get_compressed_node. now rewrite V. Qed.
Lemma points_invalid cd hp n r : node_valid n = false -> get_points_node cd hp n r = (r, Throw).
Proof. intros V. unfold get_points_node. now rewrite data_invalid. Qed.
Lemma by_key_agree f fuel k r : (forall n, node_valid n = false -> f n r = (r, Throw)) -> agree (closed_by_key fuel k r) (by_key f fuel k r) r.
Proof.
  intros H. unfold closed_by_key, by_key. destruct (key_valid k); cbn [negb]; [|apply agree_same]. apply agree_then; [apply find_agree|]. intros n. destruct (node_valid n) eqn:V; cbn [negb]; [|apply agree_same].
  unfold closed_data. rewrite V. apply agree_ub.
Qed.
Lemma points_agree cd fuel hp k r : agree (closed_points fuel hp k r) (get_points cd fuel hp k r) r.
Proof. apply agree_then; [apply by_key_agree; intros n; apply data_invalid|]. intros [|b data]; apply agree_same. Qed.
Lemma add_agree need f l : forall hp out r, (forall n hp out, need n = false -> f n hp out r = (r, Ok (hp, out))) -> (forall n hp out, need n = true -> node_valid n = false -> f n hp out r = (r, Throw)) ->
  closed_add need l (hp, out) <> UB -> add_from f l hp out r = (r, closed_add need l (hp, out)).
Proof.
  induction l as [|n l IH]; intros hp out r H K N; [reflexivity|]. cbn [closed_add add_from] in *. destruct (need n) eqn:E; [|rewrite H by exact E; now apply IH].
  unfold closed_data in *. destruct (node_valid n) eqn:V; cbn [negb] in *; [now elim N|]. now rewrite K.
Qed.
Lemma all_points_agree cd fuel od hp res r : agree (closed_all_points fuel od hp res r) (get_all_points cd fuel od hp res r) r.
Proof.
  unfold closed_all_points, get_all_points. destruct (empty_points _); [|apply agree_same..]. apply agree_then; [apply depth_agree|]. intros d. apply agree_then; [apply all_agree|]. intros l. apply agree_pair. intros N. apply add_agree; [| |exact N].
  - intros n h o E. cbn beta. now rewrite E.
  - intros n h o E V. cbn beta. rewrite E. unfold add_all_of. now rewrite points_invalid.
Qed.
Lemma box_points_agree cd b fuel od hp res r : agree (closed_box_points b fuel od hp res r) (get_points_within_box cd b fuel od hp res r) r.
Proof.
  unfold closed_box_points, get_points_within_box. apply agree_then; [apply depth_agree|]. intros d. destruct (empty_points _); [|apply agree_same..]. apply agree_then; [apply all_agree|]. intros l. apply agree_pair. intros N. apply add_agree; [| |exact N].
  - intros n h o E. cbn beta. destruct (kd (n_key n) <=? d); [|reflexivity]. cbn [andb] in E. apply orb_false_elim in E as (-> & ->). reflexivity.
  - intros n h o E V. cbn beta. apply andb_prop in E as (-> & E). destruct (key_within _ _ _ _); [unfold add_all_of; now rewrite points_invalid|]. cbn [orb] in E. rewrite E. unfold add_some_of. now rewrite points_invalid.
Qed.
Lemma validate_agree cd v l : forall t1 t2 valid r, closed_validate v (c_hdr (r_cfg r)) l t1 valid <> UB -> validate_nodes cd v l t1 t2 valid r = (r, closed_validate v (c_hdr (r_cfg r)) l t1 valid).
Proof.
  induction l as [|n l IH]; intros t1 t2 valid r N; [reflexivity|]. cbn [closed_validate validate_nodes] in *. cbv zeta in *. destruct (header_bounds _ _) as [hb| |]; cbn [bind] in *; [|reflexivity|now elim N].
  destruct (box_intersects _ hb); cbn [negb] in *.
  - unfold closed_data in *. destruct (node_valid n) eqn:V; cbn [negb] in *; [now elim N|]. now rewrite points_invalid.
  - destruct v; cbn [negb] in *; [|reflexivity]. destruct (add_int t1 _) as [t| |]; cbn [bind] in *; [now apply IH|reflexivity|reflexivity].
Qed.
Lemma answer_agree cd od fuel q r : agree (closed_answer od fuel q r) (answer_to cd od fuel q r) r.
Proof.
  destruct q; cbn [closed_answer answer_to]; apply agree_wrap.
  - apply find_agree.
  - apply points_agree.
  - apply (data_agree n (get_points_node cd [])). apply points_invalid.
  - apply by_key_agree. intros n. apply data_invalid.
  - apply (data_agree n (get_point_data_node cd)). apply data_invalid.
  - apply by_key_agree. intros n. apply compressed_invalid.
  - apply (data_agree n get_compressed_node). apply compressed_invalid.
  - apply children_agree.
  - apply all_agree.
  - apply pages_agree.
  - apply all_points_agree.
  - apply depth_agree.
  - apply select_agree.
  - apply select_agree.
  - apply select_agree.
  - apply select_agree.
  - apply box_points_agree.
  - apply agree_then; [apply all_agree|]. intros l. apply agree_pair. intros N. now apply validate_agree.
Qed.

(* ---- sequences of calls ---- *)
Lemma run_agree cd od fuel cs : forall r b y l, frun cd od fuel cs (mkFR r b) = Some (y, l) -> frun cd od fuel (filter is_ask cs) (mkFR r true) = Some (mkFR (fr_reader y) true, l).
Proof.
  induction cs as [|[q|] cs IH]; intros r b y l E; cbn [frun filter is_ask] in *.
  - assert (y = mkFR r b /\ l = []) as (-> & ->) by (split; congruence). reflexivity.
  - unfold fask in *. cbn [fr_open fr_reader] in *.
    assert (K : exists r' a b', answer_to cd od fuel q r = Some (r', a) /\ a <> UB /\ match frun cd od fuel cs (mkFR r' b') with Some (y, l) => Some (y, a :: l) | None => None end = Some (y, l)).
    { destruct b.
      - destruct (answer_to cd od fuel q r) as [(r', [a| |])|]; try discriminate; [exists r', (Ok a), true|exists r', Throw, true]; (split; [reflexivity|]; split; [discriminate|exact E]).
      - destruct (closed_answer od fuel q r) as [a|] eqn:C; [|discriminate]. assert (a <> UB) as N by (intros ->; discriminate). exists r, a, false. split; [now apply (answer_agree cd od fuel q r a)|]. split; [exact N|]. destruct a; [exact E|exact E|discriminate]. }
    destruct K as (r' & a & b' & -> & N & E'). destruct (frun cd od fuel cs (mkFR r' b')) as [(y', l')|] eqn:F; [|discriminate]. rewrite (IH _ _ _ _ F).
    assert (y' = y /\ a :: l' = l) as (<- & <-) by (split; congruence). destruct a; [reflexivity|reflexivity|now elim N].
  - apply (IH r false). exact E.
Qed.

(* ---- once every page has been read, nothing that is about nodes needs the stream ---- *)
Definition all_loaded (r : reader) : Prop := forall i p, nth_error (r_pages r) i = Some p -> rp_loaded p = true.
Definition same {A} (c : ccall A) (o : call A) (r : reader) : Prop := o = option_map (pair r) c.
Lemma same_then {A B} (c : ccall A) (o : call A) r (f : A -> ccall B) (g : A -> reader -> call B) : same c o r -> (forall a, same (f a) (g a r) r) -> same (cthen c f) (and_then o g) r.
Proof. unfold same. intros -> K. destruct c as [[a| |]|]; cbn [option_map and_then cthen]; try reflexivity. apply K. Qed.
Lemma same_wrap {A} (f : A -> answer) c o r : same c o r -> same (cthen c (fun a => Some (Ok (f a)))) (wrap f o) r.
Proof. unfold same. intros ->. destruct c as [[a| |]|]; reflexivity. Qed.
Lemma same_some {A} (x : outcome A) r : same (Some x) (Some (r, x)) r.
Proof. reflexivity. Qed.
Section Loaded.
Variable r : reader.
Hypothesis L : all_loaded r.
Lemma find_same fuel k : same (closed_find fuel k r) (find_node fuel k r) r.
Proof.
  destruct fuel as [|f]; [reflexivity|]. cbn [closed_find find_node]. destruct (mget k (r_nodes r)); [reflexivity|]. destruct (nearest_seen _ _) as [i|]; [|reflexivity].
  destruct (nth_error (r_pages r) i) as [p|] eqn:P; [|reflexivity]. rewrite (L i p P). reflexivity.
Qed.
Lemma each_same {A B} (f : A -> ccall (list B)) g : (forall a, same (f a) (g a r) r) -> forall l, same (each_closed f l) (each_call g l r) r.
Proof.
  intros H. induction l as [|a l IH]; [reflexivity|]. cbn [each_closed each_call]. apply same_then; [apply H|]. intros x. apply same_then; [apply IH|]. intros y. apply same_some.
Qed.
Lemma load_same od fuel : forall i, same (closed_load fuel od r i) (load_pages fuel od i r) r.
Proof.
  induction fuel as [|f IH]; intros i; [reflexivity|]. cbn [closed_load load_pages]. destruct (nth_error (r_pages r) i) as [p|] eqn:P; [|reflexivity]. destruct (rpage_valid p) eqn:V; cbn [negb]; [|reflexivity].
  rewrite (L i p P). cbn [cthen and_then]. rewrite P. apply same_then; [|intros l; apply same_some]. apply each_same. exact IH.
Qed.
Lemma children_same fuel od k : same (closed_children fuel od k r) (get_all_children_of_page fuel od k r) r.
Proof.
  unfold closed_children, get_all_children_of_page. destruct (key_valid k); cbn [negb]; [|reflexivity]. apply same_then; [apply find_same|]. intros n. destruct (mget k (r_seen r)); [apply load_same|reflexivity].
Qed.
Lemma all_same fuel od : same (closed_all_nodes fuel od r) (get_all_nodes fuel od r) r.
Proof. apply children_same. Qed.
Lemma pages_same fuel od : same (closed_page_list fuel od r) (get_page_list fuel od r) r.
Proof.
  unfold closed_page_list, get_page_list. apply same_then; [apply all_same|]. intros _u. destruct (_ (ro_seen od (map snd (r_seen r)))); reflexivity.
Qed.
Lemma depth_same fuel od res : same (closed_depth fuel od res r) (get_depth_at_resolution fuel od res r) r.
Proof. apply same_then; [apply all_same|]. intros l. apply same_some. Qed.
Lemma select_same cond fuel od res : same (closed_select cond fuel od res r) (select_nodes cond fuel od res r) r.
Proof. apply same_then; [apply depth_same|]. intros d. apply same_then; [apply all_same|]. intros l. apply same_some. Qed.
End Loaded.
Lemma answer_same cd od fuel q r : all_loaded r -> about_nodes q = true -> answer_to cd od fuel q r = option_map (pair r) (closed_answer od fuel q r).
Proof.
  intros L N. destruct q; try discriminate N; cbn [closed_answer answer_to]; apply same_wrap.
  - now apply find_same.
  - now apply children_same.
  - now apply all_same.
  - now apply pages_same.
  - now apply depth_same.
  - now apply select_same.
  - now apply select_same.
  - now apply select_same.
  - now apply select_same.
Qed.
Lemma loaded_all f off size hs r : stored_hierarchy f off size hs -> rinv f hs r -> (forall j, In j hs -> is_loaded r (pi_key j)) -> all_loaded r.
Proof.
  intros S R LD i p P. destruct (ri_page _ _ _ R i p P) as (_ & h & H1 & H2 & _). apply (loaded_unloaded f hs r (pi_key h) i p R (LD h H1) P). congruence.
Qed.
