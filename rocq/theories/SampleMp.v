(* SampleMp.v - concrete programs that transform the sample file *)
From Coq Require Import Permutation.
From Verif Require Import Base BaseFacts ModelFloat ModelKey ModelGeom ModelEntry ModelPoint ModelPoints ModelHeader ModelVlr ModelExtents ModelConfig
  ModelStream ModelWriter ModelReader ModelPickle ModelMp SpecKey SpecPoint SpecPoints SpecConfig SpecWriter SpecHier SpecFile SpecReader SpecData SpecRound SpecMp
  ProofFloat ProofGeom ProofKey ProofPickle ProofPoint ProofPoints ProofConfig ProofStream ProofWriter ProofWriter2 ProofWriter4 ProofData ProofReader4 ProofReader6 ProofOpen ProofRound ProofMp ProofMp2 ProofMp3 ProofMp4
  SampleWriter SampleReader PropWriter PropReader PropData PropRound PropMp.
Open Scope Z_scope.

Definition or_zero (o : outcome f64) : f64 := match o with Ok v => v | _ => f0 end.
Definition lows (l : list (vec3 * vec3)) : vec3 := mkVec (or_zero (py_min (map vx (map fst l)))) (or_zero (py_min (map vy (map fst l)))) (or_zero (py_min (map vz (map fst l)))).
Definition highs (l : list (vec3 * vec3)) : vec3 := mkVec (or_zero (py_max (map vx (map snd l)))) (or_zero (py_max (map vy (map snd l)))) (or_zero (py_max (map vz (map snd l)))).
Definition number_vec (v : vec3) : bool := negb (fnan (vx v)) && negb (fnan (vy v)) && negb (fnan (vz v)).
Lemma lows_ok l : l <> [] -> forallb (fun b => number_vec (fst b) && number_vec (snd b)) l = true -> global_bounds l (lows l) (highs l).
Proof.
  intros NE F. destruct l as [|x l]; [contradiction|]. set (a := x :: l) in *. unfold global_bounds. fold a. change (match a with [] => lows a = zero_vec /\ highs a = zero_vec | _ :: _ => let lo := map fst a in let hi := map snd a in
    np_min (map vx lo) (vx (lows a)) /\ np_min (map vy lo) (vy (lows a)) /\ np_min (map vz lo) (vz (lows a)) /\ np_max (map vx hi) (vx (highs a)) /\ np_max (map vy hi) (vy (highs a)) /\ np_max (map vz hi) (vz (highs a)) end).
  assert (MN : forall g : vec3 * vec3 -> f64, (forall b, In b a -> fnan (g b) = false) -> np_min (map g a) (or_zero (py_min (map g a)))).
  { intros g G. assert (FG : Forall (fun v => fnan v = false) (map g a)) by (apply Forall_forall; intros v V; apply in_map_iff in V as (b & <- & B); auto). destruct (py_min_least (map g a)) as (m & E & (A & B)); [discriminate|exact FG|]. rewrite E. cbn [or_zero].
    unfold np_min. assert (X : existsb fnan (map g a) = false). { clear - FG. induction FG as [|y r Y _ IH]; [reflexivity|]. cbn [existsb]. now rewrite Y, IH. } rewrite X. split; [exact A|]. now apply Forall_forall. }
  assert (MX : forall g : vec3 * vec3 -> f64, (forall b, In b a -> fnan (g b) = false) -> np_max (map g a) (or_zero (py_max (map g a)))).
  { intros g G. assert (FG : Forall (fun v => fnan v = false) (map g a)) by (apply Forall_forall; intros v V; apply in_map_iff in V as (b & <- & B); auto). destruct (py_max_greatest (map g a)) as (m & E & (A & B)); [discriminate|exact FG|]. rewrite E. cbn [or_zero].
    unfold np_max. assert (X : existsb fnan (map g a) = false). { clear - FG. induction FG as [|y r Y _ IH]; [reflexivity|]. cbn [existsb]. now rewrite Y, IH. } rewrite X. split; [exact A|]. now apply Forall_forall. }
  rewrite forallb_forall in F. assert (Q : forall b, In b a -> (fnan (vx (fst b)) = false /\ fnan (vy (fst b)) = false /\ fnan (vz (fst b)) = false) /\ (fnan (vx (snd b)) = false /\ fnan (vy (snd b)) = false /\ fnan (vz (snd b)) = false)).
  { intros b B. apply F in B. apply andb_prop in B as (B1 & B2). unfold number_vec in *. apply andb_prop in B1 as (B1 & B3). apply andb_prop in B1 as (B1 & B4). apply andb_prop in B2 as (B2 & B5). apply andb_prop in B2 as (B2 & B6).
    apply negb_true_iff in B1, B2, B3, B4, B5, B6. auto. }
  clearbody a. unfold lows, highs. cbn [vx vy vz]. rewrite !map_map. destruct a; [contradiction|]. cbv zeta.
  split; [|split; [|split; [|split; [|split]]]]; (try apply MN; try apply MX; intros b B; apply Q in B; tauto).
Qed.
(* a run on worker 0, one node after another, from Reader r and a file f with nodes l *)
Definition run_check (f : bytes) (l : list node) (r : reader) (tf : node_data -> node -> las_header -> outcome node_data) (upd : bool) (c : config) (test : writer -> bool) : bool :=
  match open_writer None c no_overrides with
  | Ok w0 =>
      let h := c_hdr (r_cfg r) in
      match mapM (fun n => transform_job verbatim tf upd (c_hdr c) (loaded h (points_of h f n)) n) l with
      | Ok ds => match each (store (add_to_copc verbatim)) ds (w0, []) with
                 | ((w1, bs), Ok _) =>
                     match close verbatim plain (if upd then copc_bounds (lows bs) (highs bs) w1 else w1) with
                     | (w, Ok _) => (Z.of_nat (length (file w)) <? 2 ^ 63) && (negb upd || (match bs with [] => false | _ => true end && forallb (fun b => number_vec (fst b) && number_vec (snd b)) bs)) && test w
                     | _ => false end
                 | _ => false end
      | _ => false end
  | _ => false
  end.
Lemma mapM_each {A B} (g : A -> outcome B) (d : B) : forall l bs, mapM g l = Ok bs -> (forall a, In a l -> g a = Ok (match g a with Ok b => b | _ => d end)) /\ bs = map (fun a => match g a with Ok b => b | _ => d end) l.
Proof.
  induction l as [|a l IH]; intros bs H; cbn [mapM] in H; [injection H as <-; split; [intros a []|reflexivity]|]. apply bind_ok in H as (b & E & H). apply bind_ok in H as (bs' & BS & H). injection H as <-. destruct (IH _ BS) as (I1 & I2). split.
  - intros x [<-|X]; [now rewrite E|auto].
  - cbn [map]. rewrite E. now f_equal.
Qed.
Lemma given_selects od r l : selects od (Some l) (f64_of_Z (-1)) r l.
Proof. exists r, 0%nat. intros m _. unfold mp_select. assert (E : fgt (f64_of_Z (-1)) (f64_of_Z (-1)) = false) by (vm_compute; reflexivity). rewrite E. reflexivity. Qed.
Lemma run_check_ok f hs r l tf upd c test chunk : let h := c_hdr (r_cfg r) in open_reader true f = Ok r -> source verbatim f hs h (points_of h f) -> Forall (stored_nodes hs) l ->
  picklable (c_hdr c) -> ready c -> init_writer c no_overrides = Ok c -> 0 < chunk -> run_check f l r tf upd c test = true ->
  exists T w, transforms verbatim f hs h (points_of h f) (fun _ => r) in_order (Some l) (f64_of_Z (-1)) r l tf (c_hdr c) T /\
    transform_program verbatim tf upd in_order (Some l) (f64_of_Z (-1)) chunk r (fun _ => r) c no_overrides c w /\ test w = true /\
    (forall n, In n l -> tf (loaded h (points_of h f n)) n (c_hdr c) = Ok (T n)).
Proof.
  intros h O SR FS PK RD IW N H. unfold run_check in H. fold h in H. destruct (open_writer None c no_overrides) as [w0| |] eqn:OW; try discriminate. cbv zeta in H.
  set (job := fun n => transform_job verbatim tf upd (c_hdr c) (loaded h (points_of h f n)) n) in *.
  destruct (mapM job l) as [ds| |] eqn:MJ; try discriminate. destruct (each (store (add_to_copc verbatim)) ds (w0, [])) as ((w1, bs), o) eqn:EA. destruct o as [[]| |]; try discriminate.
  destruct (close verbatim plain (if upd then copc_bounds (lows bs) (highs bs) w1 else w1)) as (w, o) eqn:CL. destruct o as [[]| |]; try discriminate. apply andb_prop in H as (H & TE). apply andb_prop in H as (LW & BD). apply Z.ltb_lt in LW.
  destruct (mapM_each job (mkDone [] (mkNode (mkEntry root_key 0 0 0) root_key) 0 None) _ _ MJ) as (VV & EV). set (V := fun a => match job a with Ok b => b | _ => mkDone [] (mkNode (mkEntry root_key 0 0 0) root_key) 0 None end) in *.
  set (T := fun n => match tf (loaded h (points_of h f n)) n (c_hdr c) with Ok y => y | _ => ([], mkPoints 0 0 []) end).
  assert (TF : forall n, In n l -> tf (loaded h (points_of h f n)) n (c_hdr c) = Ok (T n)).
  { intros n I. pose proof (VV n I) as J. unfold job at 1 in J. unfold transform_job in J. apply bind_ok in J as (y & Y & _). unfold T. now rewrite Y. }
  exists T, w.
  assert (FP : fresh_pool f (fun _ => r)) by (intros i; exact O).
  assert (TR : transforms verbatim f hs h (points_of h f) (fun _ => r) in_order (Some l) (f64_of_Z (-1)) r l tf (c_hdr c) T).
  { split; [exact SR|]. split; [exact FP|]. split; [apply given_selects|]. split; [exact FS|]. split; [exact PK|exact TF]. }
  split; [exact TR|]. split; [|split; [exact TE|exact TF]]. destruct (open_spec _ _ _ OW) as (c1 & E1 & CF & _). assert (c1 = c) as -> by congruence.
  destruct (pool_reader verbatim f hs h _ _ SR FP) as (r0 & SP & D & RF & CH). destruct (py_chunks_pos chunk l N) as (cs & PC & (CC & _)).
  assert (LP : mp_loop (transform_task verbatim tf upd (c_hdr (w_cfg w0))) (store (add_to_copc verbatim)) in_order (Some l) (f64_of_Z (-1)) chunk r (fun _ => r) (w0, []) (w1, bs) (Ok tt)).
  { rewrite CF. refine (loop_order _ (store (add_to_copc verbatim)) r0 (stored_nodes hs) job (fun n M => transform_task_ok verbatim tf upd _ f hs h _ r0 n SR D RF CH PK M) V in_order _ _ chunk r _ _ _ l cs (map (map V) cs) SP FS VV (given_selects _ _ _) PC CC _ _).
    - clear. induction cs; constructor; auto.
    - rewrite <- concat_map, CC, <- EV. exact EA. }
  exists w0, (if upd then copc_bounds (lows bs) (highs bs) w1 else w1), plain. split; [exact OW|]. split; [exact IW|]. split; [exact RD|]. split; [apply plain_reorders|]. split; [|split; [exact CL|exact LW]].
  exists w1, bs. split; [exact LP|]. destruct upd; [|reflexivity]. exists (lows bs), (highs bs). split; [|reflexivity]. cbn [negb orb] in BD. apply andb_prop in BD as (B1 & B2). apply lows_ok; [|exact B2]. intros ->. discriminate.
Qed.
