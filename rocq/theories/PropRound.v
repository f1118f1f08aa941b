(* PropRound.v - property theorems C32-C35: reading back what a Writer wrote *)
From Coq Require Import Permutation.
From Verif Require Import Base BaseFacts ModelFloat ModelKey ModelGeom ModelEntry ModelPoint ModelPoints ModelHeader ModelVlr ModelExtents ModelConfig
  ModelStream ModelWriter ModelReader SpecKey SpecPoint SpecPoints SpecConfig SpecHeader SpecWriter SpecHier SpecFile SpecReader SpecData SpecRound
  ProofKey ProofPoints ProofConfig ProofWriter ProofReader4 ProofReader5 ProofReader6 ProofData ProofData2 ProofOpen ProofRound ProofWriter2 ProofResults ProofReject SampleWriter SampleReader PropWriter PropReader PropData.
Open Scope Z_scope.

(* ---- a concrete session ---- *)
Lemma fresh_ready fmt s o wkt ebs ext : 6 <= fmt <= 8 -> Forall (fun e => 0 <= eb_type e <= 30) ebs -> Forall wf_eb ebs -> Z.of_nat (length ebs) < 65536 -> las_base fmt + eb_total ebs < 65536 ->
  exists c, new_config fmt s o wkt ebs ext = Ok c /\ ready c /\ init_writer c no_overrides = Ok c.
Proof.
  intros F H1 H2 L T. destruct (new_config_good fmt s o wkt ebs ext F H1 H2 L T) as (c & E & G & X). exists c. split; [exact E|]. split; [|now apply init_writer_none].
  split; [exact G|]. destruct X as (_ & _ & _ & _ & EB & _). rewrite EB. unfold new_config in E. apply bind_ok in E as (z & Z' & E). apply bind_ok in E as (x & X' & E). injection E as <-. cbn [c_hdr c_info].
  rewrite new_laz_config_ok in Z' by assumption. injection Z' as <-. cbn [z_hdr]. split; [|split; [|exact H2]].
  - unfold wf_hdr, new_header. cbn [h_src h_enc h_day h_year h_pbr h_fmt h_reclen h_pcount h_poff h_vlrs h_evoff h_evcnt h_guid h_sys h_gen]. pose proof (ProofPoint.las_base_range fmt). pose proof (eb_total_nonneg ebs H2 H1).
    assert (P : 0 <= 0 < 2 ^ 64) by lia. repeat apply conj; try lia; try reflexivity; try apply Forall_nil.
    all: try (unfold to_u; pose proof (Z.mod_pos_bound (las_base fmt + eb_total ebs) (2 ^ 16)); lia). apply Forall_forall. intros v V. apply repeat_spec in V. now rewrite V.
  - unfold wf_info, default_info. cbn [i_root_off i_root_size]. lia.
Qed.
Definition check_with (c : config) (od : orders) (ops : list wop) (test : log -> writer -> bool) : bool :=
  match run_with c od ops with
  | Some (l, w) => (Z.of_nat (length (file w)) <? 2 ^ 63) && forallb (fun x => match snd x with UB => false | _ => true end) l && test l w
  | None => false
  end.
Lemma check_with_ok c od ops test : ready c -> init_writer c no_overrides = Ok c -> reorders od -> Forall wf_op ops -> check_with c od ops test = true ->
  exists l w, complete_session verbatim od c no_overrides c ops l w /\ Z.of_nat (length (file w)) < 2 ^ 63 /\ map fst l = ops /\ test l w = true.
Proof.
  intros RD I RO WF H. unfold check_with in H. destruct (run_with c od ops) as [(l, w)|] eqn:E; [|discriminate]. apply andb_prop in H as (H & T). apply andb_prop in H as (L & D). apply Z.ltb_lt in L.
  assert (S : complete_session verbatim od c no_overrides c ops l w) by (apply run_with_complete; auto; lia). exists l, w. split; [exact S|]. split; [exact L|]. split; [|exact T].
  destruct S as ((w0 & w1 & _ & R & _) & _ & _ & _ & _ & AD & _). exact (wrun_ops _ _ _ _ _ R AD).
Qed.
Definition padded_b (n : nat) (s : bytes) : bool := (length s <=? n)%nat && negb (last s 1 =? 0).
Definition id_b (n : nat) (s : bytes) : bool := forallb (fun b => negb (b =? 0)) s && (length s <? n)%nat.
Definition storable_b (c : config) : bool :=
  (length (c_ebs c) <=? 341)%nat && (match c_ebs c with [] => true | _ => 0 <? eb_total (c_ebs c) end) && forallb (fun e => padded_b 32 (eb_name e) && padded_b 32 (eb_desc e)) (c_ebs c) &&
  forallb (fun e => negb (fgt (ex_min e) (ex_max e)) && negb (flt (ex_var e) f0)) (xs_items (c_exts c)) &&
  id_b 16 (h_guid (c_hdr c)) && id_b 32 (h_sys (c_hdr c)) && id_b 32 (h_gen (c_hdr c)) && (Z.of_nat (length (c_wkt c)) <? 2 ^ 31).
Lemma storable_b_ok c : storable_b c = true -> storable c.
Proof.
  unfold storable_b. intros H. apply andb_prop in H as (H & H8). apply andb_prop in H as (H & H7). apply andb_prop in H as (H & H6). apply andb_prop in H as (H & H5).
  apply andb_prop in H as (H & H4). apply andb_prop in H as (H & H3). apply andb_prop in H as (H1 & H2).
  assert (ID : forall n s, id_b n s = true -> id_string n s). { intros n s Q. apply andb_prop in Q as (Q1 & Q2). apply Nat.ltb_lt in Q2. split; [|exact Q2]. intros I. rewrite forallb_forall in Q1. apply Q1 in I. discriminate. }
  assert (PD : forall n s, padded_b n s = true -> padded_text n s). { intros n s Q. apply andb_prop in Q as (Q1 & Q2). apply Nat.leb_le in Q1. split; [exact Q1|]. apply negb_true_iff, Z.eqb_neq in Q2. exact Q2. }
  split; [now apply Nat.leb_le|]. split; [destruct (c_ebs c); [now left|right; now apply Z.ltb_lt]|]. split.
  { apply Forall_forall. intros e E. rewrite forallb_forall in H3. apply H3 in E. apply andb_prop in E as (E1 & E2). split; auto. }
  split. { apply Forall_forall. intros e E. rewrite forallb_forall in H4. apply H4 in E. apply andb_prop in E as (E1 & E2). apply negb_true_iff in E1, E2. split; auto. }
  repeat (split; [now apply ID|]). now apply Z.ltb_lt.
Qed.
(* records of 48 bytes, scale 1, offset 0, a WKT, extended statistics *)
Definition unit_vec : vec3 := mkVec f1 f1 f1.
Definition round_config : config := match new_config 7 unit_vec zero_vec [65; 66] [an_eb] true with Ok c => c | _ => a_config end.
Definition round_points : ModelPoints.heap :=
  [mkPoint 7 48 (f64_lit 3 (-1)) (f64_of_Z (-20)) (f64_of_Z 30) 65535 0xA3 0x5C 9 (-15000) 17 65000 (f64_lit 3 (-1)) 1 2 3 4 true false (repeat 200 12);
   mkPoint 7 48 f1 (f64_lit 7 (-2)) f0 1 2 3 4 5 6 7 f0 65535 2 3 4 true false (repeat 7 12)].
Definition round_header : las_header := mkHdr 7 1 200 2024 (mkVec (f64_of_Z 9) (f64_of_Z 9) (f64_of_Z 9)) zero_vec (repeat 3 15) zero_vec zero_vec 6 30 0 0 0 0 0 [71; 72] [73] [74; 75; 76] true.
Definition round_calls : list wop :=
  [WAdd k0 (repeat 1 48) k0; WAddCompressed k1 (repeat 9 96) 2 k0; WAddPoints k2 round_points (mkPoints 7 48 [1; 0; 1]%nat) k1; WAdd k2' (repeat 3 48) k1;
   WSetHeader round_header; WSetExtent 0 (mkExt (f64_of_Z (-3)) (f64_of_Z 5) (f64_of_Z 2) (f64_of_Z 7)); WAdd k0 (repeat 5 96) k0].
Lemma round_config_ok : ready round_config /\ init_writer round_config no_overrides = Ok round_config.
Proof.
  destruct (fresh_ready 7 unit_vec zero_vec [65; 66] [an_eb] true) as (c & E & R & I); [lia|repeat constructor; cbn; lia|unfold wf_eb; repeat constructor; cbn; lia|cbn; lia|vm_compute; reflexivity|].
  unfold round_config. rewrite E. auto.
Qed.
Lemma round_calls_wf : Forall wf_op round_calls /\ Forall positive round_calls.
Proof.
  split; unfold round_calls; repeat constructor; cbn; try lia; try (intros; discriminate).
Qed.
Definition same_node (a b : node) : bool := if node_dec a b then true else false.
Lemma round_session : exists l w r n0 n1 n2, written verbatim round_config round_calls l w /\ storable (w_cfg w) /\ open_reader true (file w) = Ok r /\ reader_on (file w) r /\
  view_of l k0 = Some (n0, k0) /\ In (WAdd k0 (repeat 5 96) k0, Ok (Some n0)) l /\ view_of l k1 = Some (n1, k0) /\ In (WAddCompressed k1 (repeat 9 96) 2 k0, Ok (Some n1)) l /\
  view_of l k2 = Some (n2, k1) /\ In (WAddPoints k2 round_points (mkPoints 7 48 [1; 0; 1]%nat) k1, Ok (Some n2)) l /\ view_of l (mkKey 3 0 0 0) = None /\ h_guid (c_hdr (w_cfg w)) = [71; 72].
Proof.
  destruct round_config_ok as (RD & I). destruct round_calls_wf as (WF & PO).
  destruct (check_with_ok round_config reversed round_calls (fun l w => settled_b (fun _ => None) l && storable_b (w_cfg w) && opens (file w) && same_bytes (h_guid (c_hdr (w_cfg w))) [71; 72] &&
     match map snd l with
     | [_; Ok (Some n1); Ok (Some n2); _; _; _; Ok (Some n0)] => match view_of l k0, view_of l k1, view_of l k2, view_of l (mkKey 3 0 0 0) with
        | Some (m0, p0), Some (m1, p1), Some (m2, p2), None => same_node m0 n0 && same_node m1 n1 && same_node m2 n2 && key_eqb p0 k0 && key_eqb p1 k0 && key_eqb p2 k1 | _, _, _, _ => false end
     | _ => false end)) as (l & w & S & L & M & T); [exact RD|exact I|apply reversed_reorders|exact WF|vm_compute; reflexivity|].
  apply andb_prop in T as (T & T5). apply andb_prop in T as (T & T4). apply andb_prop in T as (T & T3). apply andb_prop in T as (T1 & T2). apply settled_b_ok in T1. apply storable_b_ok in T2. apply opens_ok in T3 as (r & O & R). apply same_bytes_eq in T4.
  assert (LN : length l = 7%nat) by (rewrite <- (map_length fst), M; reflexivity).
  destruct l as [|(o0, r0) [|(o1, r1) [|(o2, r2) [|(o3, r3) [|(o4, r4) [|(o5, r5) [|(o6, r6) [|? ?]]]]]]]]; cbn [length] in LN; try discriminate LN. clear LN. cbn [map snd] in T5.
  destruct r1 as [[n1|]| |]; try discriminate T5. destruct r2 as [[n2|]| |]; try discriminate T5. destruct r6 as [[n0|]| |]; try discriminate T5.
  set (l := [_; _; _; _; _; _; _]) in *. destruct (view_of l k0) as [(m0, p0)|] eqn:V0; [|discriminate]. destruct (view_of l k1) as [(m1, p1)|] eqn:V1; [|discriminate]. destruct (view_of l k2) as [(m2, p2)|] eqn:V2; [|discriminate]. destruct (view_of l (mkKey 3 0 0 0)) eqn:V3; [discriminate|].
  apply andb_prop in T5 as (T5 & P2). apply andb_prop in T5 as (T5 & P1). apply andb_prop in T5 as (T5 & P0). apply andb_prop in T5 as (T5 & N2). apply andb_prop in T5 as (N0 & N1). apply key_eqb_eq in P0, P1, P2.
  unfold same_node in N0, N1, N2. destruct (node_dec m0 n0) as [->|]; [|discriminate]. destruct (node_dec m1 n1) as [->|]; [|discriminate]. destruct (node_dec m2 n2) as [->|]; [|discriminate]. subst p0 p1 p2.
  cbn [map fst l] in M. unfold round_calls in M. injection M as M0 M1 M2 M3 M4 M5 M6. exists l, w, r, n0, n1, n2. split; [split; [exists reversed, round_config, no_overrides; exact S|split; [exact T1|split; [exact PO|exact L]]]|].
  split; [exact T2|]. split; [exact O|]. split; [exact R|].
  split; [exact V0|]. split; [unfold l; rewrite M6; do 6 right; left; reflexivity|]. split; [exact V1|]. split; [unfold l; rewrite M1; right; left; reflexivity|]. split; [exact V2|]. split; [unfold l; rewrite M2; do 2 right; left; reflexivity|]. split; [exact V3|exact T4].
Qed.

(* ---- C35 ---- *)
(* the file of every complete session can be opened, and the Reader reports the Writer's configuration *)
Theorem C35_opens_with_the_configuration : forall cd od c v c0 ops l w isfile, complete_session cd od c v c0 ops l w -> storable (w_cfg w) -> Z.of_nat (length ops) < 2 ^ 32 - 2 ->
  exists r, open_reader isfile (file w) = Ok r /\ reports (w_cfg w) (r_cfg r) /\ describes (file w) (c_hdr (r_cfg r)).
Proof. intros cd od c v c0 ops l w isfile S ST N. destruct (reader_of_session _ _ _ _ _ _ _ _ isfile S ST N) as (r & A & B & C & _). eauto. Qed.
Print Assumptions C35_opens_with_the_configuration.
(* and so it does after any queries *)
Theorem C35_reader_in_use : forall cd c0 ops l w r, written cd c0 ops l w -> storable (w_cfg w) -> Z.of_nat (length ops) < 2 ^ 32 - 2 -> reader_on (file w) r ->
  reports (w_cfg w) (r_cfg r) /\ describes (file w) (c_hdr (r_cfg r)).
Proof. intros cd c0 ops l w r W ST N R. destruct (used_config _ _ _ _ _ _ W ST N R) as (A & B & _). auto. Qed.
Print Assumptions C35_reader_in_use.
(* what the constructor was given and no call can change *)
Theorem C35_constructor_settings : forall cd od c v c0 ops l w isfile r, complete_session cd od c v c0 ops l w -> storable (w_cfg w) -> Z.of_nat (length ops) < 2 ^ 32 - 2 -> open_reader isfile (file w) = Ok r ->
  let c' := r_cfg r in c_wkt c' = c_wkt c0 /\ c_ebs c' = c_ebs c0 /\ xs_ext (c_exts c') = xs_ext (c_exts c0) /\
  h_fmt (c_hdr c') = h_fmt (c_hdr c0) /\ h_reclen (c_hdr c') = h_reclen (c_hdr c0) /\ h_scale (c_hdr c') = h_scale (c_hdr c0) /\ h_offset (c_hdr c') = h_offset (c_hdr c0).
Proof.
  intros cd od c v c0 ops l w isfile r S ST N O. destruct (reader_of_session _ _ _ _ _ _ _ _ isfile S ST N) as (r' & O' & (A1 & A2 & _ & (_ & A3 & _) & A4) & _ & (B1 & B2 & B3 & B4 & B5 & B6 & B7)).
  rewrite O in O'. injection O' as <-. destruct A4 as (_ & _ & _ & _ & _ & _ & _ & E1 & E2 & E3 & E4 & _). cbv zeta. rewrite A1, A2, A3, E1, E2, E3, E4. auto 10.
Qed.
Print Assumptions C35_constructor_settings.

(* an extra-byte descriptor of type 0 without a length describes no bytes: the Writer accepts it and its file cannot be opened *)
Definition no_bytes_eb : ebfield := mkEb 0 0 0 [97] 0 (zeros 24) (zeros 24) (zeros 24) (zeros 24) (zeros 24) [].
Definition no_bytes_config : config := match new_config 7 unit_vec zero_vec [] [no_bytes_eb] false with Ok c => c | _ => a_config end.
Theorem C35_empty_descriptor_refuted : exists c l w, new_config 7 unit_vec zero_vec [] [no_bytes_eb] false = Ok c /\ complete_session verbatim plain c no_overrides c [WAdd k0 (repeat 1 36) k0] l w /\
  Z.of_nat (length (file w)) < 2 ^ 63 /\ open_reader true (file w) = Throw.
Proof.
  destruct (fresh_ready 7 unit_vec zero_vec [] [no_bytes_eb] false) as (c & E & R & I); [lia|repeat constructor; cbn; lia|unfold wf_eb; repeat constructor; cbn; lia|cbn; lia|vm_compute; reflexivity|].
  assert (C : no_bytes_config = c) by (unfold no_bytes_config; now rewrite E). exists c. rewrite <- C in R, I |- *. rewrite <- C in E.
  destruct (check_with_ok no_bytes_config plain [WAdd k0 (repeat 1 36) k0] (fun l w => match open_reader true (file w) with Throw => true | _ => false end)) as (l & w & S & L & M & T);
    [exact R|exact I|apply plain_reorders|repeat constructor; cbn; lia|vm_compute; reflexivity|].
  exists l, w. split; [exact E|]. split; [exact S|]. split; [exact L|]. revert T. generalize (open_reader true (file w)). intros [| |]; congruence.
Qed.
Print Assumptions C35_empty_descriptor_refuted.
Example C35_nonvacuous : exists l w r, written verbatim round_config round_calls l w /\ storable (w_cfg w) /\ Z.of_nat (length round_calls) < 2 ^ 32 - 2 /\ open_reader true (file w) = Ok r /\ reader_on (file w) r /\
  h_guid (c_hdr (w_cfg w)) = [71; 72] /\ h_guid (c_hdr round_config) = [] /\ c_wkt round_config = [65; 66] /\ c_ebs round_config = [an_eb] /\ xs_ext (c_exts round_config) = true.
Proof.
  destruct round_session as (l & w & r & n0 & n1 & n2 & W & S & O & R & _ & _ & _ & _ & _ & _ & _ & G). exists l, w, r. split; [exact W|]. split; [exact S|]. split; [cbn; lia|]. split; [exact O|]. split; [exact R|].
  split; [exact G|]. repeat split; vm_compute; reflexivity.
Qed.

(* ---- C32 ---- *)
Lemma written_reader cd c0 ops l w r : written cd c0 ops l w -> reader_on (file w) r -> exists hs, copc_pages (file w) hs /\ Z.of_nat (length (file w)) < 2 ^ 63 /\
  (forall k n, stored_node hs k n <-> seen_in l k n) /\ (forall p, In p (map pi_key hs) <-> page_of_view (view_of l) p) /\ ProofReader6.good (file w) hs r.
Proof.
  intros W R. destruct (written_pages _ _ _ _ _ W) as (hs & S & V & P). destruct W as (_ & _ & _ & L). exists hs. split; [exact S|]. split; [exact L|]. split; [exact V|]. split; [exact P|]. exact (on_good (file w) hs r S L R).
Qed.
Theorem C32_find_added : forall cd c0 ops l w r k n p, written cd c0 ops l w -> reader_on (file w) r -> view_of l k = Some (n, p) ->
  exists r', returns (fun m => find_node m k r) r' (Ok (mkNode (n_entry n) p)).
Proof.
  intros cd c0 ops l w r k n p W R V. destruct (written_reader _ _ _ _ _ _ W R) as (hs & S & L & ST & _ & G). destruct (find_good _ _ _ hs S L k r G) as (r' & o & E & _ & _ & A & _).
  rewrite (A (mkNode (n_entry n) p)) in E; [eauto|]. apply ST. now exists n, p.
Qed.
Print Assumptions C32_find_added.
Theorem C32_find_absent : forall cd c0 ops l w r k, written cd c0 ops l w -> reader_on (file w) r -> view_of l k = None ->
  exists r', returns (fun m => find_node m k r) r' (Ok invalid_node).
Proof.
  intros cd c0 ops l w r k W R V. destruct (written_reader _ _ _ _ _ _ W R) as (hs & S & L & ST & _ & G). destruct (find_good _ _ _ hs S L k r G) as (r' & o & E & _ & _ & _ & A).
  rewrite A in E; [eauto|]. intros n N. apply ST in N as (m & p & Q & _). congruence.
Qed.
Print Assumptions C32_find_absent.

(* a key that was added again under another page: the Reader finds the old node *)
Theorem C32_other_page_refuted : exists c l w r r' n p m, complete_session verbatim plain c no_overrides c (map fst l) l w /\ Forall positive (map fst l) /\ Z.of_nat (length (file w)) < 2 ^ 63 /\
  open_reader true (file w) = Ok r /\ reader_on (file w) r /\ view_of l K2 = Some (n, p) /\ returns (fun f => find_node f K2 r) r' (Ok m) /\ n_entry m <> n_entry n /\ n_page m <> p.
Proof.
  set (ops := [WAddCompressed K2 [1; 2; 3] 1 k0; WAddCompressed K2 [4] 2 P1]). destruct round_config_ok as (RD & I).
  destruct (check_with_ok round_config plain ops (fun l w => match l with [(_, Ok (Some n1)); _] => test_after (file w) [] (fun r _ => finds K2 (mkNode (n_entry n1) k0) r) &&
      match view_of l K2 with Some (n, p) => negb (e_count (n_entry n) =? e_count (n_entry n1)) && negb (key_eqb p k0) | None => false end | _ => false end)) as (l & w & S & L & M & T);
    [exact RD|exact I|apply plain_reorders|unfold ops; repeat constructor; cbn; lia|vm_compute; reflexivity|].
  destruct l as [|(op1, [[n1|]| |]) [|x2 [|]]]; try discriminate. set (l := [_; x2]) in *. apply andb_prop in T as (T1 & T2). destruct (test_after_ok _ _ _ T1) as (r & r0 & O & R & _ & _ & F).
  destruct (finds_ok _ _ _ F) as (r' & F'). destruct (view_of l K2) as [(n, p)|] eqn:V; [|discriminate]. apply andb_prop in T2 as (T2 & T3). apply negb_true_iff in T2, T3.
  exists round_config, l, w, r, r', n, p, (mkNode (n_entry n1) k0). split; [rewrite M; exact S|]. split; [rewrite M; unfold ops; repeat constructor; cbn; lia|]. split; [exact L|]. split; [exact O|]. split; [exact R|].
  split; [exact V|]. split; [exact F'|]. cbn [n_entry n_page]. split; [intros Q; rewrite Q, Z.eqb_refl in T2; discriminate|intros <-; rewrite key_eqb_refl in T3; discriminate].
Qed.
Print Assumptions C32_other_page_refuted.
Example C32_nonvacuous : exists l w r n0 n1 n2, written verbatim round_config round_calls l w /\ reader_on (file w) r /\ view_of l k0 = Some (n0, k0) /\ view_of l k1 = Some (n1, k0) /\ view_of l k2 = Some (n2, k1) /\ view_of l (mkKey 3 0 0 0) = None.
Proof. destruct round_session as (l & w & r & n0 & n1 & n2 & W & S & O & R & V0 & _ & V1 & _ & V2 & _ & V3 & _). exists l, w, r, n0, n1, n2. auto 10. Qed.

(* ---- C33 ---- *)
Theorem C33_all_nodes : forall cd c0 ops l w r od, written cd c0 ops l w -> reader_on (file w) r -> visits_all od ->
  exists r' ns, returns (fun m => get_all_nodes m od r) r' (Ok ns) /\ exactly ns (fun n => exists m p, view_of l (n_key n) = Some (m, p) /\ n = mkNode (n_entry m) p).
Proof.
  intros cd c0 ops l w r od W R VA. destruct (written_reader _ _ _ _ _ _ W R) as (hs & S & L & ST & _ & G). destruct (all_nodes_good _ _ _ hs S L od r VA G) as (r' & ns & E & _ & _ & (X1 & X2) & _).
  exists r', ns. split; [exact E|]. split; [exact X1|]. intros n. rewrite X2. apply ST.
Qed.
Print Assumptions C33_all_nodes.
Theorem C33_page_list : forall cd c0 ops l w r od, written cd c0 ops l w -> reader_on (file w) r -> visits_all od ->
  exists r' ks, returns (fun m => get_page_list m od r) r' (Ok ks) /\ NoDup ks /\ forall p, In p ks <-> page_of_view (view_of l) p.
Proof.
  intros cd c0 ops l w r od W R VA. destruct (written_reader _ _ _ _ _ _ W R) as (hs & S & L & _ & P & G). destruct (page_list_good _ _ _ hs S L od r VA G) as (r' & ks & E & _ & _ & PM).
  exists r', ks. split; [exact E|]. split; [apply (Permutation_NoDup (Permutation_sym PM)), (sh_keys _ _ _ _ S)|]. intros p. rewrite <- P. split; apply Permutation_in; [exact PM|now apply Permutation_sym].
Qed.
Print Assumptions C33_page_list.

Example C33_nonvacuous : exists l w r, written verbatim round_config round_calls l w /\ reader_on (file w) r /\ visits_all in_order /\ page_of_view (view_of l) k1 /\ k1 <> root_key.
Proof.
  destruct round_session as (l & w & r & n0 & n1 & n2 & W & S & O & R & V0 & _ & V1 & _ & V2 & _ & V3 & _). exists l, w, r. split; [exact W|]. split; [exact R|]. split; [apply in_order_all|]. split; [|discriminate].
  right. now exists k2, n2.
Qed.

(* ---- C34 ---- *)
Theorem C34_compressed : forall cd c0 ops l w r k n p op, written cd c0 ops l w -> reader_on (file w) r -> view_of l k = Some (n, p) -> In (op, Ok (Some n)) l ->
  exists r' chunk count, chunk_of cd (c_hdr c0) op = Some (chunk, count) /\ returns (fun m => get_compressed m k r) r' (Ok chunk).
Proof.
  intros cd c0 ops l w r k n p op W R V I. destruct (written_reader _ _ _ _ _ _ W R) as (hs & S & L & ST & _ & G). assert (N : stored_node hs k (mkNode (n_entry n) p)) by (apply ST; now exists n, p).
  destruct W as ((od & c & v & CS) & _). destruct (chunk_kept _ _ _ _ _ _ _ _ _ _ CS I) as (x & CO & _ & SZ & BX).
  destruct (data_by_key cd _ _ _ hs S L k r G) as (_ & A & _). destruct (A _ N) as (r' & E & _); [exact (chunk_within _ _ _ _ _ _ _ _ _ _ p CS I)|]. exists r', x, (e_count (n_entry n)). split; [exact CO|].
  cbn [n_entry] in E. rewrite BX in E. exact E.
Qed.
Print Assumptions C34_compressed.
Theorem C34_records : forall cd c0 ops l w r k n p op data, lossless cd -> written cd c0 ops l w -> storable (w_cfg w) -> Z.of_nat (length ops) < 2 ^ 32 - 2 -> reader_on (file w) r ->
  view_of l k = Some (n, p) -> In (op, Ok (Some n)) l -> stores_records cd (c_hdr c0) op data -> wf_bytes data -> h_reclen (c_hdr c0) <= 255 ->
  exists r', returns (fun m => get_point_data cd m k r) r' (Ok data).
Proof.
  intros cd c0 ops l w r k n p op data LS W SB N R V I SR WB R255. destruct (written_reader _ _ _ _ _ _ W R) as (hs & S & L & ST & _ & G). assert (NS : stored_node hs k (mkNode (n_entry n) p)) by (apply ST; now exists n, p).
  destruct (used_header _ _ _ _ _ _ W SB N R) as (F & RL & _). destruct W as ((od & c & v & CS) & _ & PO & _).
  destruct (data_by_key cd _ _ _ hs S L k r G) as (A & _). destruct (A _ data NS) as (r' & E & _); [|eauto].
  apply (holds_written cd od c v c0 ops l w op n data); auto. eapply op_positive; eauto.
Qed.
Print Assumptions C34_records.
(* the points decode the records; GetPoints creates new point objects beside those of the program *)
Theorem C34_points_of_records : forall cd c0 ops l w r k n p op data hp, lossless cd -> written cd c0 ops l w -> storable (w_cfg w) -> Z.of_nat (length ops) < 2 ^ 32 - 2 -> reader_on (file w) r ->
  view_of l k = Some (n, p) -> In (op, Ok (Some n)) l -> stores_records cd (c_hdr c0) op data -> wf_bytes data -> h_reclen (c_hdr c0) <= 255 ->
  exists r' x qs, returns (fun m => get_points cd m hp k r) r' (Ok x) /\ has_points (c_hdr c0) x qs /\ decodes_to (c_hdr c0) data qs.
Proof.
  intros cd c0 ops l w r k n p op data hp LS W SB N R V I SR WB R255. destruct (written_reader _ _ _ _ _ _ W R) as (hs & S & L & ST & _ & G). assert (NS : stored_node hs k (mkNode (n_entry n) p)) by (apply ST; now exists n, p).
  destruct (used_header _ _ _ _ _ _ W SB N R) as (F & RL & SC & OF). destruct W as ((od & c & v & CS) & _ & PO & _).
  assert (HR : holds_records cd (c_hdr (r_cfg r)) (file w) (mkNode (n_entry n) p) data) by (apply (holds_written cd od c v c0 ops l w op n data); auto; eapply op_positive; eauto).
  destruct HR as (H1 & H2 & H3 & H4 & H5 & H6 & H7). destruct (unpack_decodes (c_hdr (r_cfg r)) [] data H1 ltac:(lia) H5 _ H6 ltac:(lia)) as (qs & D & _).
  destruct (data_by_key cd _ _ _ hs S L k r G) as (_ & _ & A & _). destruct (A _ qs hp NS) as (r' & x & E & HP & _); [exists data; split; [split; auto 10|exact D]|split; [exact H1|lia]|].
  exists r', x, qs. split; [exact E|]. split; [|eapply same_decodes; eauto]. destruct HP as (P1 & P2 & P3). rewrite F in P2. rewrite RL in P3. split; auto.
Qed.
Print Assumptions C34_points_of_records.
(* points that were added come back, in order, with their coordinates rounded to the header's scale and offset *)
Theorem C34_points : forall cd c0 ops l w r k n p hp c page hp', lossless cd -> written cd c0 ops l w -> storable (w_cfg w) -> Z.of_nat (length ops) < 2 ^ 32 - 2 -> reader_on (file w) r ->
  view_of l k = Some (n, p) -> In (WAddPoints k hp c page, Ok (Some n)) l -> Forall wf_point hp -> uniform hp c -> h_reclen (c_hdr c0) <= 255 ->
  exists r' x ps qs, mapM (hget hp) (c_pts c) = Ok ps /\ returns (fun m => get_points cd m hp' k r) r' (Ok x) /\ has_points (c_hdr c0) x qs /\
    Forall2 (comes_back (h_scale (c_hdr c0)) (h_offset (c_hdr c0))) ps qs.
Proof.
  intros cd c0 ops l w r k n p hp c page hp' LS W SB N R V I WP U R255. destruct (W) as ((od & cc & v & CS) & _).
  destruct (accepted_points _ _ _ _ _ _ _ _ _ _ _ _ _ CS I) as (F & RL & data & P). destruct (ready_base _ _ _ _ _ _ _ _ CS) as (F6 & RB).
  destruct (points_come_back (c_hdr c0) hp c data WP U F RL (proj1 RB) P) as (WB & ps & qs & E & D & FB).
  destruct (C34_points_of_records cd c0 ops l w r k n p _ data hp' LS W SB N R V I P WB R255) as (r' & x & qs' & RT & HP & D').
  assert (qs' = qs) as ->. { eapply decodes_unique; [|exact D'|exact D]. pose proof (ProofPoint.las_base_range (h_fmt (c_hdr c0))). lia. }
  exists r', x, ps, qs. auto.
Qed.
Print Assumptions C34_points.
Theorem C34_absent : forall cd c0 ops l w r k hp, written cd c0 ops l w -> storable (w_cfg w) -> Z.of_nat (length ops) < 2 ^ 32 - 2 -> reader_on (file w) r -> view_of l k = None ->
  (exists r', returns (fun m => get_compressed m k r) r' (Ok [])) /\ (exists r', returns (fun m => get_point_data cd m k r) r' (Ok [])) /\
  (exists r' x, returns (fun m => get_points cd m hp k r) r' (Ok x) /\ has_points (c_hdr c0) x []).
Proof.
  intros cd c0 ops l w r k hp W SB N R V. destruct (written_reader _ _ _ _ _ _ W R) as (hs & S & L & ST & _ & G). destruct (used_header _ _ _ _ _ _ W SB N R) as (F & RL & SC & OF).
  destruct W as ((od & cc & v & CS) & _). destruct (ready_base _ _ _ _ _ _ _ _ CS) as (F6 & RB & RT).
  assert (NS : forall n, ~ stored_node hs k n) by (intros n Q; apply ST in Q as (m & p & Q & _); congruence).
  destruct (data_by_key cd _ _ _ hs S L k r G) as (_ & _ & _ & A). destruct (A NS) as ((r1 & E1 & _) & (r2 & E2 & _) & A3). split; [eauto|]. split; [eauto|].
  destruct (A3 hp) as (r3 & x & E3 & (P1 & P2 & P3) & _); [split; rewrite F; [exact F6|rewrite RL; auto]|]. exists r3, x. split; [exact E3|]. rewrite F in P2. rewrite RL in P3. split; auto.
Qed.
Print Assumptions C34_absent.
Example C34_nonvacuous : exists l w r n0 n1 n2 data, lossless verbatim /\ written verbatim round_config round_calls l w /\ storable (w_cfg w) /\ Z.of_nat (length round_calls) < 2 ^ 32 - 2 /\ reader_on (file w) r /\
  view_of l k0 = Some (n0, k0) /\ In (WAdd k0 (repeat 5 96) k0, Ok (Some n0)) l /\ view_of l k1 = Some (n1, k0) /\ In (WAddCompressed k1 (repeat 9 96) 2 k0, Ok (Some n1)) l /\
  view_of l k2 = Some (n2, k1) /\ In (WAddPoints k2 round_points (mkPoints 7 48 [1; 0; 1]%nat) k1, Ok (Some n2)) l /\ view_of l (mkKey 3 0 0 0) = None /\
  stores_records verbatim (c_hdr round_config) (WAddCompressed k1 (repeat 9 96) 2 k0) (repeat 9 96) /\
  points_pack round_points (mkPoints 7 48 [1; 0; 1]%nat) (h_scale (c_hdr round_config)) (h_offset (c_hdr round_config)) = Ok data /\ length data = 144%nat /\
  Forall wf_point round_points /\ uniform round_points (mkPoints 7 48 [1; 0; 1]%nat) /\ h_reclen (c_hdr round_config) <= 255.
Proof.
  destruct round_session as (l & w & r & n0 & n1 & n2 & W & S & O & R & V0 & I0 & V1 & I1 & V2 & I2 & V3 & _).
  assert (P : match points_pack round_points (mkPoints 7 48 [1; 0; 1]%nat) (h_scale (c_hdr round_config)) (h_offset (c_hdr round_config)) with Ok d => (length d =? 144)%nat | _ => false end = true) by (vm_compute; reflexivity).
  assert (E : forall o : outcome bytes, match o with Ok d => (length d =? 144)%nat | _ => false end = true -> exists data, o = Ok data /\ length data = 144%nat) by (intros [d| |] Q; try discriminate; exists d; split; [reflexivity|now apply Nat.eqb_eq]).
  destruct (E (points_pack round_points (mkPoints 7 48 [1; 0; 1]%nat) (h_scale (c_hdr round_config)) (h_offset (c_hdr round_config))) P) as (data & E' & L). clear E P.
  exists l, w, r, n0, n1, n2, data. split; [apply verbatim_lossless|]. split; [exact W|]. split; [exact S|]. split; [cbn; lia|]. split; [exact R|]. split; [exact V0|]. split; [exact I0|]. split; [exact V1|]. split; [exact I1|].
  split; [exact V2|]. split; [exact I2|]. split; [exact V3|]. split; [split; [reflexivity|vm_compute; reflexivity]|]. split; [exact E'|]. split; [exact L|].
  split; [unfold wf_point, round_points, wf_bytes; repeat constructor; cbn; lia|]. split; [|vm_compute; discriminate].
  intros a [<-|[<-|[<-|[]]]]; eexists; (split; [reflexivity|split; reflexivity]).
Qed.
