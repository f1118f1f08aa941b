(* PropCallback.v - C94: transform_multithreaded with a completed_callback *)
From Coq Require Import String Permutation.
Import List.
From Verif Require Import Base BaseFacts ModelFloat ModelKey ModelGeom ModelEntry ModelPoint ModelPoints ModelHeader ModelVlr ModelExtents ModelConfig
  ModelStream ModelWriter ModelReader ModelPickle ModelMp ModelCallback SpecKey SpecPoint SpecPoints SpecConfig SpecWriter SpecHier SpecFile SpecReader SpecData SpecRound SpecMp SpecCallback
  ProofConfig ProofWriter4 ProofResults ProofReader4 ProofOpen ProofRound ProofMp ProofMp2 ProofMp3 ProofMp5 ProofCallback SampleWriter SampleReader PropWriter PropReader PropData PropRound PropMp SampleMp PropMp2 PropMp3.
Open Scope Z_scope.

(* the callback does not change what is written: a run with a callback that ends normally writes what a run without it
   and without dictionaries can write, for Writers and for LazWriters; all of C56 applies to it *)
Theorem C94_same_file : forall {V St W} (add : done -> W -> W * outcome unit) set_bounds cd (tf : node_data -> node -> las_header -> outcome (returned V)) args (cb : option (@callback V St)) upd h od nodes res chunk r p w st w' st',
  free_arguments args -> transform_calling add set_bounds cd tf args cb upd h od nodes res chunk r p w st w' st' (Ok tt) ->
  transform_mt add set_bounds cd (points_only tf) upd h od nodes res chunk r p w w' (Ok tt).
Proof.
  intros V St W add sb cd tf args cb upd h od nodes res chunk r p w st w' st' A (w1 & bs & L & E). apply free_arguments_ok in A. exists w1, bs. split; [|exact E].
  change (w, @nil (vec3 * vec3)) with (fst ((w, @nil (vec3 * vec3)), st)). change (w1, bs) with (fst ((w1, bs), st')).
  refine (erase_loop _ _ (store add) (store_and_call add cb) (fun _ => True) (fun o => o = Ok tt) (task_erases cd tf args upd h A) (fun _ _ _ _ => Logic.I) eq_refl _ _ _ _ _ _ _ _ _ _ L eq_refl).
  intros b s s' o _ H ->. now apply (step_erases add cb).
Qed.
Print Assumptions C94_same_file.
Lemma returned_named {V St} cd (tf : node_data -> node -> las_header -> outcome (returned V)) args (cb : option (@callback V St)) upd h n r b : returns_free_names tf cb -> snd (callback_task cd tf args upd h n r) = Ok b -> named cb b.
Proof.
  intros R. unfold callback_task, named. destruct cb as [f|]; [|auto]. destruct R as [R|R]; [discriminate R|]. destruct (let! n := ship_node n in let! h := ship_header h in Ok (n, h)) as [(m, g)| |]; [|discriminate..].
  destruct (get_points_node cd [] m r) as (q, [x| |]); [|discriminate..]. cbn [snd]. unfold callback_job. destruct (has_name _ args); [discriminate|]. destruct (tf x m g) as [[y|y kw|]| |] eqn:E; cbn [bind]; try discriminate.
  - destruct (transform_job _ _ _ _ _ _) as [d| |]; cbn [bind]; try discriminate. intros [= <-]. reflexivity.
  - destruct (transform_job _ _ _ _ _ _) as [d| |]; cbn [bind]; try discriminate. intros [= <-]. cbn [snd]. apply free_names_ok. exact (R _ _ _ _ _ E).
Qed.
(* with a callback that raises nothing, exactly the same can happen as without it, exceptions included *)
Theorem C94_same_runs : forall {V St W} (add : done -> W -> W * outcome unit) set_bounds cd (tf : node_data -> node -> las_header -> outcome (returned V)) args (cb : option (@callback V St)) upd h od nodes res chunk r p w st w' o,
  free_arguments args -> returns_free_names tf cb -> raises_nothing cb ->
  (exists st', transform_calling add set_bounds cd tf args cb upd h od nodes res chunk r p w st w' st' o) <-> transform_mt add set_bounds cd (points_only tf) upd h od nodes res chunk r p w w' o.
Proof.
  intros V St W add sb cd tf args cb upd h od nodes res chunk r p w st w' o A RN SI. apply free_arguments_ok in A.
  assert (TQ : forall n r b, snd (callback_task cd tf args upd h n r) = Ok b -> named cb b) by (intros; eapply returned_named; eauto).
  assert (STP : forall b s s' o, named cb b -> store_and_call add cb b s = (s', o) -> True -> store add (fst b) (fst s) = (fst s', o)) by (intros b s s' o' N H _; now apply (silent_step add cb SI)). split.
  - intros (st' & w1 & bs & L & E). exists w1, bs. split; [|exact E]. change (w, @nil (vec3 * vec3)) with (fst ((w, @nil (vec3 * vec3)), st)). change (w1, bs) with (fst ((w1, bs), st')).
    exact (erase_loop _ _ (store add) (store_and_call add cb) (named cb) (fun _ => True) (task_erases cd tf args upd h A) TQ Logic.I STP _ _ _ _ _ _ _ _ _ L Logic.I).
  - intros (w1 & bs & L & E). destruct (loop_from _ _ (store add) (store_and_call add cb) (named cb) (fun _ => True) (task_erases cd tf args upd h A) TQ STP (fun _ => Logic.I) _ _ _ _ _ _ _ _ _ st L) as (st' & L2).
    exists st', w1, bs. split; [exact L2|exact E].
Qed.
Print Assumptions C94_same_runs.

Lemma default_of {A} (x : A) (o : outcome A) y : o = Ok y -> (match o with Ok z => z | _ => x end) = y.
Proof. intros ->. reflexivity. Qed.
(* the callback is called once for every node, empty ones included, one call after the other, each before its node is
   written, with the node, the number of its points, their compressed bytes and the dictionary; it gets no call for a
   second node before the first is written.  If a call raises, its node is not written and nothing happens after it *)
Theorem C94_calls : forall {V St} cd f hs h P p od nodes res r l (tf : node_data -> node -> las_header -> outcome (returned V)) args c0 T K upd chunk c v w st w' st' o (cb : @callback V St),
  transforms_with cd f hs h P p od nodes res r l tf args (c_hdr c0) T K -> 0 < chunk -> open_writer None c v = Ok w -> init_writer c v = Ok c0 -> ready c0 -> (forall n, In n l -> packable cd (c_hdr c0) (T n)) ->
  calling_copc cd tf args (Some cb) upd od nodes res chunk r p w st w' st' o ->
  exists before rest st1 w1, Permutation l (before ++ rest) /\ each (call_for cd cb (c_hdr c0) T K) before st = (st1, Ok tt) /\ each (add_for cd (c_hdr c0) T) before w = (w1, Ok tt) /\
    ((o = Ok tt /\ rest = [] /\ st' = st1 /\ (if upd then exists mn mx, w' = copc_bounds mn mx w1 else w' = w1)) \/
     (exists n rest', rest = n :: rest' /\ o <> Ok tt /\
        ((call_for cd cb (c_hdr c0) T K n st1 = (st', o) /\ w' = w1) \/ (call_for cd cb (c_hdr c0) T K n st1 = (st', Ok tt) /\ add_for cd (c_hdr c0) T n w1 = (w', o))))).
Proof.
  intros V St cd f hs h P p od nodes res r l tf args c0 T K upd chunk c v w st w' st' o cb (SR & FP & SL & FS & PK & FA & TF) N O IW RD PA (w1 & bs & L & E). apply free_arguments_ok in FA.
  destruct (open_spec _ _ _ O) as (c1 & E1 & CF & _). assert (c1 = c0) as -> by congruence. clear E1. rewrite CF in L. destruct (pool_reader cd f hs h P p SR FP) as (r0 & SP & D & RF & CH).
  destruct (ready_header _ RD) as (F6 & RB & WH). set (dummy := (mkDone [] (mkNode (invalid_entry) root_key) 0 None, @nil (string * V))).
  set (val := fun n => callback_job cd tf args upd (c_hdr c0) (loaded h (P n)) n). set (VV := fun n => match val n with Ok z => z | _ => dummy end).
  assert (VO : forall n, In n l -> val n = Ok (VV n) /\ described cd (c_hdr c0) T K VV n).
  { intros n I. rewrite Forall_forall in FS. destruct (stored_facts f hs n (proj1 SR) (FS n I)) as (_ & W1 & W2 & _). destruct (TF n I) as (FN & x & TX & RP).
    destruct (callback_job_brings cd tf args upd (c_hdr c0) (loaded h (P n)) n x (T n) (K n) F6 RB W1 W2 FA TX RP (PA n I)) as (d & J & B1 & B2 & B3). assert (VE : VV n = (d, K n)) by (unfold VV; now apply default_of).
    split; [unfold val; now rewrite VE|]. unfold described. rewrite VE. cbn [fst snd]. split; [reflexivity|]. split; [exact FN|]. split; [exact B1|]. split; [exact B2|]. split; [exact B3|]. exact (proj1 (PA n I)). }
  destruct (loop_visits (callback_task cd tf args upd (c_hdr c0)) (store_and_call (add_to_copc cd) (Some cb)) r0 (stored_nodes hs) val (fun n M => callback_task_ok cd tf args upd _ f hs h P r0 n SR D RF CH PK M) VV od nodes res chunk r p _ _ o l SP FS (fun n I => proj1 (VO n I)) SL N L) as ((calls & rest & PM & EA & OR) & _).
  apply perm_map_pre in PM as (q & PM & EQ). symmetry in EQ. apply map_eq_app in EQ as (ns & ms & -> & <- & <-).
  assert (FD : Forall (described cd (c_hdr c0) T K VV) ns) by (apply Forall_forall; intros n I; apply VO; eapply Permutation_in; [apply Permutation_sym; exact PM|apply in_or_app; now left]).
  destruct (steps_of cd cb (c_hdr c0) T K VV ns _ _ _ _ _ _ _ FD EA) as (before & rest & st1 & w0 & -> & X1 & X2 & X3). exists before, (rest ++ ms), st1, w0. split; [now rewrite app_assoc|]. split; [exact X1|]. split; [exact X2|].
  destruct X3 as [(-> & -> & -> & ->)|(n & rest' & -> & NO & X3)].
  - left. split; [reflexivity|]. specialize (OR eq_refl). apply map_eq_nil in OR. split; [exact OR|]. split; [reflexivity|]. destruct upd; [destruct E as (mn & mx & _ & ->); eauto|exact E].
  - right. exists n, (rest' ++ ms). split; [reflexivity|]. split; [exact NO|]. destruct o as [[]| |]; [now destruct NO|subst w'..]; exact X3.
Qed.
Print Assumptions C94_calls.
(* with a callback that raises nothing the call succeeds *)
Theorem C94_succeeds : forall {V St} cd f hs h P p od nodes res r l (tf : node_data -> node -> las_header -> outcome (returned V)) args c0 T K upd chunk c v w st w' st' o (cb : option (@callback V St)),
  transforms_with cd f hs h P p od nodes res r l tf args (c_hdr c0) T K -> 0 < chunk -> open_writer None c v = Ok w -> init_writer c v = Ok c0 -> ready c0 -> (forall n, In n l -> packable cd (c_hdr c0) (T n)) ->
  Z.of_nat (length (file w)) + 2 ^ 31 * Z.of_nat (length l) < 2 ^ 63 -> returns_free_names tf cb -> raises_nothing cb ->
  calling_copc cd tf args cb upd od nodes res chunk r p w st w' st' o -> o = Ok tt.
Proof.
  intros V St cd f hs h P p od nodes res r l tf args c0 T K upd chunk c v w st w' st' o cb (SR & FP & SL & FS & PK & FA & TF) N O IW RD PA SM RN SI C.
  assert (X : transform_copc cd (points_only tf) upd od nodes res chunk r p w w' o) by (eapply C94_same_runs; eauto).
  refine (C56_succeeds cd f hs h P p od nodes res r l (points_only tf) c0 T upd chunk c v w w' o _ N O IW RD PA SM X).
  split; [exact SR|]. split; [exact FP|]. split; [exact SL|]. split; [exact FS|]. split; [exact PK|]. intros n I. destruct (TF n I) as (_ & x & E & RP). unfold points_only. rewrite E. destruct RP as [(-> & _)| ->]; reflexivity.
Qed.
Print Assumptions C94_succeeds.

(* an argument with one of the names points, node, writer_header and reader raises, and nothing is called or written *)
Theorem C94_protected_argument : forall {V St W} (add : done -> W -> W * outcome unit) set_bounds cd f hs h P p od nodes res r l (tf : node_data -> node -> las_header -> outcome (returned V)) args (cb : option (@callback V St)) upd hw chunk w st w' st' o,
  source cd f hs h P -> fresh_pool f p -> selects od nodes res r l -> Forall (stored_nodes hs) l -> picklable hw -> 0 < chunk -> l <> [] -> ~ free_arguments args ->
  transform_calling add set_bounds cd tf args cb upd hw od nodes res chunk r p w st w' st' o -> o = Throw /\ w' = w /\ st' = st.
Proof.
  intros V St W add sb cd f hs h P p od nodes res r l tf args cb upd hw chunk w st w' st' o SR FP SL FS PK N NE NA (w1 & bs & L & E). destruct (pool_reader cd f hs h P p SR FP) as (r0 & SP & D & RF & CH).
  assert (HN : has_name own_arguments args = true). { destruct (has_name own_arguments args) eqn:X; [reflexivity|]. destruct NA. now apply free_arguments_ok. }
  destruct (loop_chunks _ _ _ _ _ _ _ _ _ _ _ _ SL N L) as (cs & _ & (EC & _) & R).
  destruct (mp_run_spec (callback_task cd tf args upd hw) (store_and_call add cb) r0 (fun _ => Throw) (stored_nodes hs)) with (cs := cs) (p := p) (s := ((w, @nil (vec3 * vec3)), st)) (s' := ((w1, bs), st')) (o := o) as ((seen & PM & bs' & rest & ES & A) & _); auto.
  - intros n M. rewrite (callback_task_ok cd tf args upd hw f hs h P r0 n) by assumption. unfold callback_job. now rewrite HN.
  - now rewrite EC.
  - rewrite EC in PM. assert (TH : Forall (fun x => x = Throw) seen) by (eapply Permutation_Forall; [exact PM|]; apply Forall_forall; intros x X; apply in_map_iff in X as (? & <- & _); reflexivity).
    assert (SN : seen <> []) by (intros ->; apply Permutation_sym, Permutation_nil, map_eq_nil in PM; contradiction). subst seen. destruct bs' as [|b bs']; [|apply Forall_inv in TH; discriminate TH]. cbn [map app] in *.
    destruct A as [(A & C)|(A & x & rest' & -> & [(-> & ->)|(-> & ->)])].
    + cbn [each] in A. apply pair_equal_spec in A as (_ & <-). destruct (SN (C eq_refl)).
    + cbn [each] in A. apply pair_equal_spec in A as (A & _). apply pair_equal_spec in A as (A & <-). apply pair_equal_spec in A as (<- & _). auto.
    + apply Forall_inv in TH. discriminate TH.
Qed.
Print Assumptions C94_protected_argument.
(* a dictionary with one of the names node, point_count and compressed_points raises when there is a callback *)
Theorem C94_reserved_name : forall {V St} cd f hs h P p od nodes res r l (tf : node_data -> node -> las_header -> outcome (returned V)) args c0 T K upd chunk c v w st w' st' o (cb : @callback V St),
  source cd f hs h P -> fresh_pool f p -> selects od nodes res r l -> Forall (stored_nodes hs) l -> picklable (c_hdr c0) -> free_arguments args -> 0 < chunk -> l <> [] ->
  open_writer None c v = Ok w -> init_writer c v = Ok c0 -> ready c0 -> (forall n, In n l -> packable cd (c_hdr c0) (T n)) ->
  (forall n, In n l -> ~ free_names (K n) /\ tf (loaded h (P n)) n (c_hdr c0) = Ok (Pair (T n) (K n))) ->
  calling_copc cd tf args (Some cb) upd od nodes res chunk r p w st w' st' o -> o = Throw /\ w' = w /\ st' = st.
Proof.
  intros V St cd f hs h P p od nodes res r l tf args c0 T K upd chunk c v w st w' st' o cb SR FP SL FS PK FA N NE O IW RD PA TF (w1 & bs & L & E). apply free_arguments_ok in FA.
  destruct (open_spec _ _ _ O) as (c1 & E1 & CF & _). assert (c1 = c0) as -> by congruence. clear E1. rewrite CF in L. destruct (pool_reader cd f hs h P p SR FP) as (r0 & SP & D & RF & CH).
  destruct (ready_header _ RD) as (F6 & RB & WH). set (dummy := (mkDone [] (mkNode (invalid_entry) root_key) 0 None, @nil (string * V))).
  set (val := fun n => callback_job cd tf args upd (c_hdr c0) (loaded h (P n)) n). set (VV := fun n => match val n with Ok z => z | _ => dummy end).
  assert (VO : forall n, In n l -> val n = Ok (VV n) /\ has_name callback_arguments (map fst (snd (VV n))) = true).
  { intros n I. rewrite Forall_forall in FS. destruct (stored_facts f hs n (proj1 SR) (FS n I)) as (_ & W1 & W2 & _). destruct (TF n I) as (FN & TX).
    destruct (callback_job_brings cd tf args upd (c_hdr c0) (loaded h (P n)) n _ (T n) (K n) F6 RB W1 W2 FA TX (or_intror eq_refl) (PA n I)) as (d & J & _). assert (VE : VV n = (d, K n)) by (unfold VV; now apply default_of).
    split; [unfold val; now rewrite VE|]. rewrite VE. cbn [snd]. destruct (has_name callback_arguments (map fst (K n))) eqn:X; [reflexivity|]. destruct FN. now apply free_names_ok. }
  destruct (loop_visits (callback_task cd tf args upd (c_hdr c0)) (store_and_call (add_to_copc cd) (Some cb)) r0 (stored_nodes hs) val (fun n M => callback_task_ok cd tf args upd _ f hs h P r0 n SR D RF CH PK M) VV od nodes res chunk r p _ _ o l SP FS (fun n I => proj1 (VO n I)) SL N L) as ((calls & rest & PM & EA & OR) & _).
  destruct calls as [|x calls].
  - cbn [each] in EA. apply pair_equal_spec in EA as (_ & <-). rewrite (OR eq_refl) in PM. apply Permutation_sym, Permutation_nil, map_eq_nil in PM. contradiction.
  - assert (I : In x (map VV l)) by (eapply Permutation_in; [apply Permutation_sym; exact PM|now left]). apply in_map_iff in I as (n & <- & I). destruct (VO n I) as (_ & HN). destruct (VV n) as (d, kw). cbn [snd] in HN.
    cbn [each] in EA. unfold then_ in EA. unfold store_and_call at 1 in EA. rewrite HN in EA. apply pair_equal_spec in EA as (EA & <-). apply pair_equal_spec in EA as (EA & <-). apply pair_equal_spec in EA as (<- & <-). auto.
Qed.
Print Assumptions C94_reserved_name.

(* ---- a program that copies a file of three nodes and adds up the points ---- *)
Definition tell (name : string) (x : node_data) (_ : node) (_ : las_header) : outcome (returned Z) := Ok (Pair x [(name, Z.of_nat (length (c_pts (snd x))))]).
Definition add_up : @callback Z Z := fun _ _ _ kw st => (st + fold_left Z.add (map snd kw) 0, Ok tt).
Definition told (name : string) (T : node -> node_data) (n : node) : list (string * Z) := [(name, Z.of_nat (length (c_pts (snd (T n)))))].
Lemma tell_told name h (P : node -> list point) l T hw : (forall n, In n l -> copy_points (loaded h (P n)) n hw = Ok (T n)) -> forall n, In n l -> tell name (loaded h (P n)) n hw = Ok (Pair (T n) (told name T n)).
Proof. intros H n I. specialize (H n I). assert (E : loaded h (P n) = T n) by (unfold copy_points in H; congruence). unfold tell, told. now rewrite E. Qed.
Example C94_nonvacuous : exists cd f hs h P p r l T c0 w w' st', transforms_with cd f hs h P p in_order (Some l) (f64_of_Z (-1)) r l (tell "seen") ["threshold"%string] (c_hdr c0) T (told "seen" T) /\
  open_writer None c0 no_overrides = Ok w /\ init_writer c0 no_overrides = Ok c0 /\ ready c0 /\ (forall n, In n l -> packable cd (c_hdr c0) (T n)) /\ (exists n, In n l /\ length (c_pts (snd (T n))) = 3%nat) /\
  returns_free_names (tell "seen") (Some add_up) /\ raises_nothing (Some add_up) /\
  calling_copc cd (tell "seen") ["threshold"%string] (Some add_up) true in_order (Some l) (f64_of_Z (-1)) 2 r p w 0 w' st' (Ok tt).
Proof.
  destruct (C56_nonvacuous true) as (cd & f & hs & h & P & p & r & l & T & c0 & w & r' & (SR & FP & SL & FS & PK & TF) & (w0 & w1 & wod & O & IW & RD & RO & TC & _) & _ & _ & _ & _ & _ & PA & NE & _).
  assert (FA : free_arguments ["threshold"%string]) by (intros a [<-|[]]; repeat split; discriminate).
  assert (FN : forall v, free_names [("seen"%string, v : Z)]) by (intros v a v' [[= <- _]|[]]; repeat split; discriminate).
  assert (RN : returns_free_names (tell "seen") (Some add_up)). { right. intros x n g y kw E. unfold tell in E. assert (kw = [("seen"%string, Z.of_nat (length (c_pts (snd x))))]) as -> by congruence. now apply FN. }
  assert (SI : raises_nothing (Some add_up)) by (intros n c b kw s; eexists; reflexivity).
  destruct (proj2 (C94_same_runs (add_to_copc cd) copc_bounds cd (tell "seen") ["threshold"%string] (Some add_up) true (c_hdr (w_cfg w0)) in_order (Some l) (f64_of_Z (-1)) 2 r p w0 0 w1 (Ok tt) FA RN SI) TC) as (st' & C).
  exists cd, f, hs, h, P, p, r, l, T, c0, w0, w1, st'. split.
  - split; [exact SR|]. split; [exact FP|]. split; [exact SL|]. split; [exact FS|]. split; [exact PK|]. split; [exact FA|]. intros n I. split; [now apply FN|]. eexists. split; [exact (tell_told "seen" h P l T (c_hdr c0) TF n I)|right; reflexivity].
  - split; [exact O|]. split; [exact IW|]. split; [exact RD|]. split; [intros n I; now apply PA|]. split; [exact NE|]. auto.
Qed.
(* desired: a transform function may return any dictionary.  False of the code: an entry named "node" makes every run
   with a callback raise before anything is written, although the same program without the callback succeeds *)
Theorem C94_reserved_name_refuted : exists cd f hs h P p r l c0 w, source cd f hs h P /\ fresh_pool f p /\ Forall (stored_nodes hs) l /\ open_writer None c0 no_overrides = Ok w /\ ready c0 /\
  (exists w' st', calling_copc cd (tell "node") [] (@None (@callback Z Z)) true in_order (Some l) (f64_of_Z (-1)) 2 r p w 0 w' st' (Ok tt)) /\
  forall w' st' o, calling_copc cd (tell "node") [] (Some add_up) true in_order (Some l) (f64_of_Z (-1)) 2 r p w 0 w' st' o -> o = Throw /\ w' = w /\ st' = 0.
Proof.
  destruct (C56_nonvacuous true) as (cd & f & hs & h & P & p & r & l & T & c0 & w & r' & (SR & FP & SL & FS & PK & TF) & (w0 & w1 & wod & O & IW & RD & RO & TC & _) & _ & _ & _ & _ & _ & PA & (n0 & I0 & _) & _).
  assert (FA : free_arguments []) by (intros a []).
  destruct (proj2 (C94_same_runs (add_to_copc cd) copc_bounds cd (tell "node") [] (@None (@callback Z Z)) true (c_hdr (w_cfg w0)) in_order (Some l) (f64_of_Z (-1)) 2 r p w0 0 w1 (Ok tt) FA (or_introl eq_refl) Logic.I) TC) as (st' & C).
  exists cd, f, hs, h, P, p, r, l, c0, w0. split; [exact SR|]. split; [exact FP|]. split; [exact FS|]. split; [exact O|]. split; [exact RD|]. split; [exists w1, st'; exact C|].
  intros w2 st2 o R. refine (C94_reserved_name cd f hs h P p in_order (Some l) (f64_of_Z (-1)) r l (tell "node") [] c0 T (told "node" T) true 2 c0 no_overrides w0 0 w2 st2 o add_up SR FP SL FS PK FA ltac:(lia) _ O IW RD _ _ R).
  - intros ->. destruct I0.
  - intros n I. now apply PA.
  - intros n I. split; [|exact (tell_told "node" h P l T (c_hdr c0) TF n I)]. intros FN. destruct (FN "node"%string (Z.of_nat (length (c_pts (snd (T n))))) (or_introl eq_refl)) as (X & _). now apply X.
Qed.
Print Assumptions C94_reserved_name_refuted.
