(* ProofMp2.v - reading with a process pool *)
From Coq Require Import Permutation Ascii String DecimalString DecimalZ.
Import List.
From Verif Require Import Base BaseFacts ModelFloat ModelKey ModelGeom ModelEntry ModelPoint ModelPoints ModelHeader ModelVlr ModelExtents ModelConfig
  ModelStream ModelWriter ModelReader ModelPickle ModelMp SpecKey SpecPoint SpecWriter SpecHier SpecFile SpecReader SpecData SpecMp
  ProofKey ProofPickle ProofData ProofReader4 ProofReader6 ProofOpen ProofMp.
Open Scope Z_scope.

Lemma ship_node_ok n : wf_entry (n_entry n) = true -> wf_key (n_page n) = true -> ship_node n = Ok n.
Proof. intros A B. unfold ship_node. rewrite pickle_node by assumption. cbn [bind pn_entry pn_page]. destruct n; reflexivity. Qed.
Lemma stored_facts f hs n : copc_pages f hs -> stored_nodes hs n ->
  node_valid n = true /\ wf_entry (n_entry n) = true /\ wf_key (n_page n) = true /\ key_valid (n_key n) = true /\ key_valid (n_page n) = true /\ child_of (n_key n) (n_page n) = true.
Proof.
  intros S (i & e & I & _ & E & _ & K & N). destruct (sh_entry _ _ _ _ S i e I E) as (A & B & C). subst n. cbn [n_entry n_page n_key] in *.
  assert (PK : wf_key (pi_key i) = true /\ key_valid (pi_key i) = true).
  { destruct (key_eqb (pi_key i) root_key) eqn:Q; [apply key_eqb_eq in Q; rewrite Q; auto|]. destruct (sh_up _ _ _ _ S i I) as (e' & E' & K'); [intros Q'; rewrite Q', key_eqb_refl in Q; discriminate|].
    unfold sub_entries, all_entries in E'. apply filter_In in E' as (E' & _). apply in_flat_map in E' as (j & J & E'). destruct (sh_entry _ _ _ _ S j e' J E') as (A' & B' & _). rewrite <- K'.
    unfold wf_entry in A'. unfold entry_valid in B'. split; [|now apply andb_prop in B' as (_ & ?)]. apply andb_prop in A' as (A' & _). apply andb_prop in A' as (A' & _). now apply andb_prop in A' as (? & _). }
  destruct PK. unfold node_valid. cbn [n_entry]. split; [exact B|]. split; [exact A|]. split; [assumption|]. split; [unfold entry_valid in B; now apply andb_prop in B as (_ & ?)|]. auto.
Qed.
Lemma stored_ship f hs n : copc_pages f hs -> stored_nodes hs n -> ship_node n = Ok n.
Proof. intros S N. destruct (stored_facts f hs n S N) as (_ & A & B & _). now apply ship_node_ok. Qed.
Lemma pool_reader cd f hs h P p : source cd f hs h P -> fresh_pool f p -> exists r0, same_pool r0 p /\ r_data r0 = f /\ r_fail r0 = false /\ c_hdr (r_cfg r0) = h.
Proof.
  intros (S & L & (r & O & H) & _) F. exists r. split; [intros i; specialize (F i); congruence|]. destruct (pages_root f hs S L) as (X & Y). destruct (opened_fields true f r O X Y) as (A & B & _). auto.
Qed.
Lemma stored_read cd f hs h P r0 n : source cd f hs h P -> r_data r0 = f -> r_fail r0 = false -> c_hdr (r_cfg r0) = h -> stored_nodes hs n ->
  get_points_node cd [] n r0 = (r0, Ok (loaded h (P n))).
Proof.
  intros (S & L & _ & RD) D F H N. destruct (points_ok cd f n (P n) r0 [] D F L) as (E & _); [now destruct (stored_facts f hs n S N)|rewrite H; now apply RD|]. rewrite E. unfold loaded. rewrite H. reflexivity.
Qed.
Lemma read_task_ok {R} cd (rf : node_data -> node -> outcome R) f hs h P r0 n : source cd f hs h P -> r_data r0 = f -> r_fail r0 = false -> c_hdr (r_cfg r0) = h -> stored_nodes hs n ->
  read_task cd rf n r0 = (r0, let! v := rf (loaded h (P n)) n in Ok (n, v)).
Proof.
  intros S D F H N. unfold read_task. pose proof (stored_ship f hs n (proj1 S) N) as Q. rewrite Q, (stored_read cd f hs h P r0 n S D F H N). f_equal. destruct (rf _ _); [|reflexivity..]. cbn [bind]. now rewrite Q.
Qed.
(* a loop over selected nodes *)
Lemma loop_chunks {B St} (task : node -> reader -> reader * outcome B) (step : B -> St -> St * outcome unit) od nodes res chunk r p s s' o l :
  selects od nodes res r l -> 0 < chunk -> mp_loop task step od nodes res chunk r p s s' o -> exists cs, py_chunks chunk l = Ok cs /\ cut_into chunk l cs /\ mp_run task step cs p s s' o.
Proof.
  intros SL N (fuel & r' & sel & E & H). rewrite (select_agree _ _ _ _ _ _ _ _ SL E) in H. destruct (py_chunks_pos chunk l N) as (cs & C & CI). rewrite C in H. eauto.
Qed.
Lemma loop_possible {B St} (task : node -> reader -> reader * outcome B) (step : B -> St -> St * outcome unit) od nodes res chunk r p s s' o l cs :
  selects od nodes res r l -> py_chunks chunk l = Ok cs -> mp_run task step cs p s s' o -> mp_loop task step od nodes res chunk r p s s' o.
Proof. intros (r' & m & E) C R. exists m, r', (Ok l). split; [apply E; lia|]. rewrite C. exact R. Qed.

Lemma perm_ok {A B} (g : A -> B) l bs rest : Permutation (map (fun n => Ok (g n)) l) (map Ok bs ++ rest) -> exists rest', rest = map Ok rest' /\ Permutation (map g l) (bs ++ rest').
Proof.
  intros P. assert (F : Forall (fun x : outcome B => exists b, x = Ok b) (map Ok bs ++ rest)). { eapply Permutation_Forall; [exact P|]. apply Forall_forall. intros x X. apply in_map_iff in X as (n & <- & _). eauto. }
  apply Forall_app in F as (_ & F). assert (R : exists rest', rest = map Ok rest'). { clear - F. induction F as [|x r (b & ->) _ (r' & ->)]; [exists []; reflexivity|exists (b :: r'); reflexivity]. }
  destruct R as (rest' & ->). exists rest'. split; [reflexivity|]. rewrite <- map_app in P. rewrite <- (map_map g Ok) in P. apply Permutation_sym, Permutation_map_inv in P as (l3 & E & P).
  assert (I : forall a b : list B, map Ok a = map (@Ok B) b -> a = b). { induction a as [|x a IH]; intros [|y b] Q; try discriminate; [reflexivity|]. injection Q as -> Q. f_equal. now apply IH. }
  apply I in E. subst l3. exact P.
Qed.
Section Loop.
Context {B St : Type}.
Variables (task : node -> reader -> reader * outcome B) (step : B -> St -> St * outcome unit) (r0 : reader) (ok : node -> Prop) (val : node -> outcome B).
Hypothesis T : forall n, ok n -> task n r0 = (r0, val n).
(* every task succeeds *)
Lemma loop_visits V od nodes res chunk r p s s' o l : same_pool r0 p -> Forall ok l -> (forall n, In n l -> val n = Ok (V n)) -> selects od nodes res r l -> 0 < chunk -> mp_loop task step od nodes res chunk r p s s' o ->
  (exists calls rest, Permutation (map V l) (calls ++ rest) /\ each step calls s = (s', o) /\ (o = Ok tt -> rest = [])) /\
  (o = Ok tt -> exists cs segs, cut_into chunk l cs /\ Forall2 (fun c seg => Permutation (map V c) seg) cs segs /\ each step (concat segs) s = (s', Ok tt)).
Proof.
  intros SP F VV SL N H. destruct (loop_chunks _ _ _ _ _ _ _ _ _ _ _ _ SL N H) as (cs & _ & CI & R). pose proof CI as (EC & _).
  destruct (mp_run_spec task step r0 val ok T cs p s s' o R SP) as ((seen & P & bs & rest & E & A) & SG); [now rewrite EC|]. rewrite EC in P. split.
  - rewrite (map_ext_in _ (fun n => Ok (V n)) l) in P by exact VV. rewrite E in P. apply perm_ok in P as (rest' & ER & P). exists bs, rest'. split; [exact P|].
    destruct A as [(A1 & A2)|(A1 & x & rest2 & A2 & A3)].
    + split; [exact A1|]. intros O. rewrite (A2 O) in ER. destruct rest'; [reflexivity|discriminate].
    + exfalso. rewrite A2 in ER. destruct rest' as [|y rest']; [discriminate|]. cbn [map] in ER. injection ER as -> _. destruct A3 as [(Q & _)|(Q & _)]; discriminate.
  - intros O. destruct (SG O) as (segs & G1 & G2). exists cs, segs. split; [exact CI|]. split; [|exact G2]. clear - G1 VV EC. subst l. induction G1 as [|c seg cs segs P G IH]; [constructor|]. constructor.
    + rewrite (map_ext_in _ (fun n => Ok (V n)) c) in P by (intros n I; apply VV; cbn [concat]; apply in_or_app; auto). rewrite <- (app_nil_r (map Ok seg)) in P. apply perm_ok in P as (rest' & ER & P). destruct rest'; [|discriminate]. now rewrite app_nil_r in P.
    + apply IH. intros n I. apply VV. cbn [concat]. apply in_or_app; auto.
Qed.
(* a task throws *)
Lemma each_ub (NU : forall b s, snd (step b s) <> UB) : forall bs s s', each step bs s <> (s', UB).
Proof.
  induction bs as [|b bs IH]; intros s s' E; cbn [each] in E; [discriminate|]. unfold then_ in E. pose proof (NU b s) as Q. destruct (step b s) as (s1, [[]| |]); [exact (IH _ _ E)|discriminate|]. now apply Q.
Qed.
Lemma loop_throws od nodes res chunk r p s s' o l : same_pool r0 p -> Forall ok l -> (exists n, In n l /\ val n = Throw) -> (forall n, In n l -> val n <> UB) -> (forall b s, snd (step b s) <> UB) ->
  selects od nodes res r l -> 0 < chunk -> mp_loop task step od nodes res chunk r p s s' o -> o = Throw.
Proof.
  intros SP F (n & IN & TN) NU SU SL N H. destruct (loop_chunks _ _ _ _ _ _ _ _ _ _ _ _ SL N H) as (cs & _ & (EC & _) & R).
  destruct (mp_run_spec task step r0 val ok T cs p s s' o R SP) as ((seen & P & bs & rest & E & A) & _); [now rewrite EC|]. rewrite EC in P.
  assert (NS : Forall (fun x : outcome B => x <> UB) seen). { eapply Permutation_Forall; [exact P|]. apply Forall_forall. intros x X. apply in_map_iff in X as (m & <- & M). auto. }
  assert (TS : In (@Throw B) seen). { eapply Permutation_in; [exact P|]. rewrite <- TN. now apply in_map. }
  destruct A as [(A1 & A2)|(A1 & x & rest2 & -> & [(_ & ->)|(-> & _)])]; [|reflexivity|].
  - destruct o as [[]| |]; [|reflexivity|now apply (each_ub SU) in A1]. exfalso. rewrite (A2 eq_refl), app_nil_r in E. rewrite E in TS. apply in_map_iff in TS as (? & ? & _). discriminate.
  - exfalso. rewrite Forall_forall in NS. apply (NS UB); [|reflexivity]. rewrite E. apply in_or_app. right. now left.
Qed.
(* every order of the results within their chunks can occur *)
Lemma loop_order V od nodes res chunk r p s s' l cs segs : same_pool r0 p -> Forall ok l -> (forall n, In n l -> val n = Ok (V n)) -> selects od nodes res r l -> py_chunks chunk l = Ok cs -> concat cs = l ->
  Forall2 (fun c seg => Permutation (map V c) seg) cs segs -> each step (concat segs) s = (s', Ok tt) -> mp_loop task step od nodes res chunk r p s s' (Ok tt).
Proof.
  intros SP F VV SL C EC G E. eapply loop_possible; [exact SL|exact C|]. eapply (mp_run_possible task step r0 val ok T cs segs); [exact SP|now rewrite EC| |exact E]. subst l. clear - G VV.
  induction G as [|c seg cs segs P G IH]; [constructor|]. constructor.
  - rewrite (map_ext_in _ (fun n => Ok (V n)) c) by (intros n I; apply VV; cbn [concat]; apply in_or_app; auto). rewrite <- (map_map V Ok). now apply Permutation_map.
  - apply IH. intros n I. apply VV. cbn [concat]. apply in_or_app; auto.
Qed.
End Loop.
(* some run exists *)
Lemma run_exists {B St} (task : node -> reader -> reader * outcome B) (step : B -> St -> St * outcome unit) cs : forall p s, exists s' o, mp_run task step cs p s s' o.
Proof.
  induction cs as [|c cs IH]; intros p s; [eexists; eexists; constructor|].
  destruct (run_tasks task (map (fun n => (0%nat, n)) c) p) as (p', res) eqn:R. assert (CD : chunk_done task p c p' res).
  { exists (map (fun n => (0%nat, n)) c), res. rewrite map_map, map_id. auto. }
  destruct (consume step res s) as (s1, o) eqn:C. destruct o as [[]| |].
  - destruct (IH p' s1) as (s2 & o & R2). exists s2, o. eapply run_next; eauto.
  - exists s1, Throw. eapply run_stop; eauto. discriminate.
  - exists s1, UB. eapply run_stop; eauto. discriminate.
Qed.
Lemma loop_exists {B St} (task : node -> reader -> reader * outcome B) (step : B -> St -> St * outcome unit) od nodes res chunk r p s l : selects od nodes res r l -> exists s' o, mp_loop task step od nodes res chunk r p s s' o.
Proof.
  intros (r' & m & H). pose proof (H m (le_n m)) as E. destruct (py_chunks chunk l) as [cs| |] eqn:C.
  - destruct (run_exists task step cs p s) as (s' & o & R). exists s', o, m, r', (Ok l). split; [exact E|]. now rewrite C.
  - exists s, Throw, m, r', (Ok l). split; [exact E|]. rewrite C. auto.
  - exists s, UB, m, r', (Ok l). split; [exact E|]. rewrite C. auto.
Qed.

(* ---- str(key) ---- *)
Fixpoint no_comma (s : string) : Prop := match s with EmptyString => True | String c s => c <> Ascii.ascii_of_nat 44 /\ no_comma s end.
Lemma uint_no_comma u : no_comma (NilEmpty.string_of_uint u).
Proof. induction u; cbn; try exact I; (split; [discriminate|assumption]). Qed.
Lemma show_no_comma z : no_comma (show_int z).
Proof. unfold show_int. destruct (Z.to_int z); cbn; [apply uint_no_comma|split; [discriminate|apply uint_no_comma]]. Qed.
Lemma comma_cut a : forall b s t, no_comma a -> no_comma b -> String.append a (String (Ascii.ascii_of_nat 44) s) = String.append b (String (Ascii.ascii_of_nat 44) t) -> a = b /\ s = t.
Proof.
  induction a as [|c a IH]; intros [|d b] s t A B E; cbn in *.
  - injection E as ->. auto.
  - injection E as <- _. destruct B as (B & _). now destruct B.
  - injection E as -> _. destruct A as (A & _). now destruct A.
  - injection E as <- E. destruct (IH b s t) as (-> & ->); tauto.
Qed.
Lemma show_inj a b : show_int a = show_int b -> a = b.
Proof.
  intros E. apply (f_equal NilEmpty.int_of_string) in E. unfold show_int in E. rewrite !NilEmpty.isi in E. injection E as E. apply (f_equal Z.of_int) in E. now rewrite !DecimalZ.of_to in E.
Qed.
Lemma append_length a : forall b, String.length (String.append a b) = (String.length a + String.length b)%nat.
Proof. induction a as [|c a IH]; intros b; cbn; [reflexivity|now rewrite IH]. Qed.
Lemma append_inj_r : forall a b t, String.append a t = String.append b t -> a = b.
Proof.
  intros a b t. intros E. assert (L : String.length a = String.length b). { apply (f_equal String.length) in E. rewrite !append_length in E. lia. }
  revert b E L. induction a as [|c a IH]; intros [|d b] E L; try discriminate; [reflexivity|]. cbn in *. injection E as -> E. injection L as L. f_equal. now apply IH.
Qed.
Lemma key_string_inj j k : key_string j = key_string k -> j = k.
Proof.
  unfold key_string. intros E. cbn [String.append] in E. injection E as E.
  apply comma_cut in E as (E1 & E); [|apply show_no_comma..]. cbn [String.append] in E. injection E as E.
  apply comma_cut in E as (E2 & E); [|apply show_no_comma..]. cbn [String.append] in E. injection E as E.
  apply comma_cut in E as (E3 & E); [|apply show_no_comma..]. cbn [String.append] in E. injection E as E. apply append_inj_r in E.
  apply show_inj in E1, E2, E3, E. destruct j as [a b c d], k as [a2 b2 c2 d2]; cbn [kd kx ky kz] in *; subst; reflexivity.
Qed.

(* ---- concat and map ---- *)
Lemma loaded_points h ps : points_in (loaded h ps) ps.
Proof. exact (hget_fresh [] ps). Qed.
Lemma limits_spec limits p : in_limits limits p = match limits with [] => true | _ => if in_dec Z.eq_dec (p_class p) limits then true else false end.
Proof.
  unfold in_limits. destruct limits as [|a l] eqn:E; [reflexivity|]. rewrite <- E. clear. destruct (in_dec _ _ _) as [I|I].
  - apply existsb_exists. exists (p_class p). split; [exact I|apply Z.eqb_refl].
  - destruct (existsb _ _) eqn:X; [|reflexivity]. apply existsb_exists in X as (c & C & X). apply Z.eqb_eq in X. subst c. contradiction.
Qed.
Lemma read_xyz_ok limits h ps n : read_xyz limits (loaded h ps) n = Ok (coordinates limits ps).
Proof.
  unfold read_xyz. rewrite (loaded_points h ps : mapM _ _ = _). cbn [bind]. unfold coordinates. do 2 f_equal. apply filter_ext. intros p. apply limits_spec.
Qed.
Lemma each_collect {A V} (calls : list (A * V)) : forall s, each (fun x (s : list V) => (s ++ [snd x], Ok tt)) calls s = (s ++ map snd calls, Ok tt).
Proof.
  induction calls as [|x calls IH]; intros s; [cbn [each map]; now rewrite app_nil_r|]. cbn [each map]. unfold then_. rewrite IH, <- app_assoc. reflexivity.
Qed.
Lemma perm_map_pre {A B} (g : A -> B) l bs : Permutation (map g l) bs -> exists l', Permutation l l' /\ bs = map g l'.
Proof. intros P. apply Permutation_sym, Permutation_map_inv in P as (l' & -> & P). eauto. Qed.
(* dictionaries *)
Lemma dict_new {V} k (v : V) : forall m, ~ In k (map fst m) -> dict_set k v m = m ++ [(k, v)].
Proof.
  induction m as [|(k', v') m IH]; intros N; [reflexivity|]. cbn [dict_set map fst app] in *. destruct (String.eqb_spec k k') as [->|D]; [destruct N; now left|]. rewrite IH; [reflexivity|]. intros I. apply N. now right.
Qed.
Definition map_step {V} (x : node * list V) (s : list (string * list V)) : list (string * list V) * outcome unit :=
  (match snd x with [] => s | _ => dict_set (key_string (n_key (fst x))) (snd x) s end, Ok tt).
Definition nonnil {V} (x : list V) : bool := match x with [] => false | _ => true end.
Lemma each_map {V} (g : node -> list V) : forall l m, NoDup (map n_key l) -> (forall n, In n l -> ~ In (key_string (n_key n)) (map fst m)) ->
  each map_step (map (fun n => (n, g n)) l) m = (m ++ map (fun n => (key_string (n_key n), g n)) (filter (fun n => nonnil (g n)) l), Ok tt).
Proof.
  induction l as [|n l IH]; intros m ND N; [cbn [each map filter]; now rewrite app_nil_r|]. cbn [map] in ND. apply NoDup_cons_iff in ND as (N1 & ND). cbn [map each]. unfold then_. unfold map_step at 1. cbn [fst snd filter].
  destruct (g n) as [|a t] eqn:G; cbn [nonnil].
  - apply IH; [exact ND|]. intros q Q. apply N. now right.
  - rewrite dict_new by (apply N; now left). rewrite IH; [|exact ND|].
    + rewrite <- app_assoc. cbn [map app]. rewrite G. reflexivity.
    + intros q Q I. rewrite map_app in I. apply in_app_or in I as [I|[I|[]]]; [revert I; apply N; now right|]. cbn [fst] in I. apply key_string_inj in I. apply N1. rewrite I. now apply in_map.
Qed.
