(* PropRetry.v - C77: a Close that throws *)
From Verif Require Import Base BaseFacts ModelFloat ModelKey ModelGeom ModelEntry ModelPoint ModelPoints ModelHeader ModelVlr ModelExtents ModelConfig
  ModelStream ModelWriter ModelReader ModelTrace SpecKey SpecPoint SpecConfig SpecHeader SpecWriter SpecFile SpecReject SpecCrash ProofStream ProofHeader ProofConfig
  ProofWriter ProofClose ProofClose2 ProofSession ProofReject ProofTrace3 ProofTrace6 ProofRetry SampleWriter PropWriter2.
Open Scope Z_scope.

(* copc_writer.hpp:52 (~Writer) and :92 (~FileWriter): the destructor calls Close; it is noexcept, so an
   exception that leaves Close in it ends the program (std::terminate) *)
Inductive ending := Finished | Terminated | Undefined.
Definition destroy (cd : codec) (od : orders) (w : writer) : ending :=
  match snd (close cd od w) with Ok _ => Finished | Throw => Terminated | UB => Undefined end.

(* The desired property - a program that catches the exception of Close goes on - is false of the
   code, for every way in which Close can throw: unless the program first removes the cause, the
   destructor of the Writer does not finish, because it calls Close again. *)
Theorem C77_destructor_after_failed_close_refuted : forall cd od od2 c v c0 ops w0 w1 l w2,
  open_writer None c v = Ok w0 -> init_writer c v = Ok c0 -> ready c0 -> Forall wf_op ops -> reorders od -> reorders od2 ->
  wrun cd ops w0 = (w1, l) -> Z.of_nat (length (file w1)) < 2 ^ 64 -> close cd od w1 = (w2, Throw) -> destroy cd od2 w2 <> Finished.
Proof.
  intros cd od od2 c v c0 ops w0 w1 l w2 O E RD WF RO RO2 R L CL D. unfold destroy in D. destruct (close cd od2 w2) as (w3, [[]| |]) eqn:C2; cbn [snd] in D; [|discriminate..].
  destruct (run_history cd c v c0 ops w0 w1 l O E RD WF R L) as (cs & HS). destruct (hs_base _ _ _ _ _ _ HS) as ((B1 & B2 & _) & _ & _ & _ & BP & _).
  apply (failed_again cd od od2 w1 w2 w3); try assumption; [apply (hs_cfg _ _ _ _ _ _ HS)|rewrite BP; apply Z.mod_pos_bound; lia|split; assumption].
Qed.
Print Assumptions C77_destructor_after_failed_close_refuted.

(* ---- a second Close after the cause was removed ---- *)
Definition with_bounds (mn mx : vec3) (h : las_header) : las_header :=
  mkHdr (h_src h) (h_enc h) (h_day h) (h_year h) mx mn (h_pbr h) (h_scale h) (h_offset h) (h_fmt h) (h_reclen h) (h_pcount h) (h_poff h) (h_vlrs h) (h_evoff h) (h_evcnt h) (h_guid h) (h_sys h) (h_gen h) (h_copc h).
Definition ones : vec3 := mkVec f1 f1 f1.
Definition inverted : wop := WSetHeader (with_bounds ones zero_vec (c_hdr a_config)).
Definition righted : wop := WSetHeader (with_bounds zero_vec ones (c_hdr a_config)).
(* calls, a Close that throws, more calls, a Close that succeeds *)
Definition retried (cd : codec) (od : orders) (c : config) (v : overrides) (ops1 ops2 : list wop) (w : writer) : Prop :=
  exists w0 w1 l1 w2 w3 l3, open_writer None c v = Ok w0 /\ wrun cd ops1 w0 = (w1, l1) /\ close cd od w1 = (w2, Throw) /\ wrun cd ops2 w2 = (w3, l3) /\ close cd od w3 = (w, Ok tt).
Definition check_retry (ops1 ops2 : list wop) (test : writer -> bool) : bool :=
  match open_writer None a_config no_overrides with
  | Ok w0 => let '(w1, _) := wrun verbatim ops1 w0 in
      match close verbatim plain w1 with
      | (w2, Throw) => let '(w3, _) := wrun verbatim ops2 w2 in match close verbatim plain w3 with (w, Ok _) => test w | _ => false end
      | _ => false end
  | _ => false end.
Lemma check_retry_ok ops1 ops2 test : check_retry ops1 ops2 test = true -> exists w, retried verbatim plain a_config no_overrides ops1 ops2 w /\ test w = true.
Proof.
  unfold check_retry. destruct (open_writer None a_config no_overrides) as [w0| |] eqn:O; [|discriminate..]. destruct (wrun verbatim ops1 w0) as (w1, l1) eqn:R1.
  destruct (close verbatim plain w1) as (w2, [?| |]) eqn:C1; [discriminate| |discriminate]. destruct (wrun verbatim ops2 w2) as (w3, l3) eqn:R3. destruct (close verbatim plain w3) as (w, [[]| |]) eqn:C3; [|discriminate..].
  intros T. exists w. split; [|exact T]. exists w0, w1, l1, w2, w3, l3. auto.
Qed.
Lemma inverted_wf : Forall wf_op (some_calls ++ [inverted]).
Proof. apply Forall_app. split; [apply some_calls_wf|]. constructor; [|constructor]. destruct a_config_ok as ((_ & H & _) & _). exact H. Qed.
(* the file such a program gets announces EVLRs that are not there: following the announced records
   leads past the end of the file *)
Theorem C77_close_retried_refuted : exists w, retried verbatim plain a_config no_overrides (some_calls ++ [inverted]) [righted] w /\
  Z.of_nat (length (file w)) < follow 60 8 (Z.to_nat (las_evlr_count (file w))) (las_evlr_offset (file w)) (file w).
Proof.
  destruct (check_retry_ok (some_calls ++ [inverted]) [righted] (fun w => Z.of_nat (length (file w)) <? follow 60 8 (Z.to_nat (las_evlr_count (file w))) (las_evlr_offset (file w)) (file w))) as (w & R & T); [vm_compute; reflexivity|].
  exists w. split; [exact R|]. now apply Z.ltb_lt.
Qed.
Print Assumptions C77_close_retried_refuted.
(* its chunk table gives sizes that are not those of the chunks *)
Theorem C77_chunk_table_retried_refuted : exists w, retried verbatim plain a_config no_overrides (some_calls ++ [inverted]) [righted] w /\ b_chunks (w_base w) <> [(1, 48); (2, 3); (2, 96); (5, 4); (1, 48)] /\
  bytes_at (num_at (data_start a_config) 8 (file w) + 8) 80 (file w) = cd_table verbatim (b_chunks (w_base w)).
Proof.
  destruct (check_retry_ok (some_calls ++ [inverted]) [righted] (fun w => negb (same_bytes (map snd (b_chunks (w_base w))) [48; 3; 96; 4; 48]) &&
    same_bytes (bytes_at (num_at (data_start a_config) 8 (file w) + 8) 80 (file w)) (cd_table verbatim (b_chunks (w_base w))))) as (w & R & T); [vm_compute; reflexivity|].
  apply andb_prop in T as (T1 & T2). apply same_bytes_eq in T2. exists w. split; [exact R|]. split; [|exact T2]. intros E. rewrite E in T1. discriminate T1.
Qed.
Print Assumptions C77_chunk_table_retried_refuted.

(* ---- what does hold: the chunks ---- *)
Theorem C77_failed_close_keeps_chunks : forall cd od c v c0 ops w0 w1 l w2 r op n,
  open_writer None c v = Ok w0 -> init_writer c v = Ok c0 -> ready c0 -> Forall wf_op ops ->
  wrun cd ops w0 = (w1, l) -> all_defined l -> Z.of_nat (length (file w1)) < 2 ^ 64 -> close cd od w1 = (w2, r) -> In (op, Ok (Some n)) l ->
  exists x, chunk_of cd (c_hdr c0) op = Some (x, e_count (n_entry n)) /\ bytes_at (e_offset (n_entry n)) (e_size (n_entry n)) (file w2) = x.
Proof.
  intros cd od c v c0 ops w0 w1 l w2 r op n O E RD WF R D L CL I. apply (chunk_survives cd od c v c0 ops [] w0 w1 w1 l [] op n (file w2) O E RD WF (Forall_nil _) R D eq_refl L I).
  unfold left_after. cbn [wrun fst t_run app]. pose proof (ProofTrace.play_close cd od w1) as PC. rewrite CL in PC. cbn [fst] in PC. unfold file. rewrite <- PC.
  rewrite <- (app_nil_r (t_body cd od w1 ++ t_tail cd od w1)) at 1. apply ProofTrace2.cut_app_r. reflexivity.
Qed.
Print Assumptions C77_failed_close_keeps_chunks.

Example C77_nonvacuous : exists w0 w1 l w2, open_writer None a_config no_overrides = Ok w0 /\ init_writer a_config no_overrides = Ok a_config /\ ready a_config /\ Forall wf_op (some_calls ++ [inverted]) /\
  wrun verbatim (some_calls ++ [inverted]) w0 = (w1, l) /\ all_defined l /\ Z.of_nat (length (file w1)) < 2 ^ 64 /\ close verbatim plain w1 = (w2, Throw) /\ destroy verbatim plain w2 = Terminated.
Proof.
  destruct (check_calls_ok (some_calls ++ [inverted]) (fun w l => forallb (fun x => match snd x with UB => false | _ => true end) l && (Z.of_nat (length (file w)) <? 2 ^ 64) &&
    match close verbatim plain w with (w2, Throw) => match destroy verbatim plain w2 with Terminated => true | _ => false end | _ => false end)) as (w0 & w1 & l & O & R & T); [vm_compute; reflexivity|].
  apply andb_prop in T as (T & T3). apply andb_prop in T as (T1 & T2). destruct (close verbatim plain w1) as (w2, [?| |]) eqn:C; [discriminate| |discriminate].
  exists w0, w1, l, w2. destruct a_config_ok as (RD & _ & I). repeat (split; [first [exact O|exact I|exact RD|exact inverted_wf|exact R]|]). split; [|split; [now apply Z.ltb_lt|split; [exact C|]]].
  - apply Forall_forall. intros (op, r) Hin U. rewrite forallb_forall in T1. apply T1 in Hin. cbn in *. now subst r.
  - destruct (destroy verbatim plain w2); [discriminate|reflexivity|discriminate].
Qed.
