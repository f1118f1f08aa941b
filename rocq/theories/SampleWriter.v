(* SampleWriter.v - concrete sessions, used to show that the theorems' hypotheses are met *)
From Verif Require Import Base BaseFacts ModelFloat ModelKey ModelGeom ModelEntry ModelPoint ModelPoints ModelHeader ModelVlr ModelExtents ModelConfig
  ModelStream ModelWriter SpecKey SpecPoint SpecConfig SpecHeader SpecWriter SpecLaz SpecFile SpecHier ProofKey ProofPoints ProofConfig.

(* a codec that stores records and tables verbatim *)
Fixpoint untable (n : nat) (b : bytes) : option (list (Z * Z)) :=
  match n with
  | O => Some []
  | S n => let? l := untable n (skipn 16 b) in Some ((le_dec (firstn 8 b), le_dec (firstn 8 (skipn 8 b))) :: l)
  end.
Definition verbatim : codec := mkCodec (fun _ _ d => d) (fun fmt eb n d => Some (firstn (Z.to_nat (n * rec_size fmt eb)) d))
  (flat_map (fun p => enc_u64 (fst p) ++ enc_u64 (snd p))) (fun n b => untable (Z.to_nat n) b).
Lemma verbatim_lossless : lossless verbatim.
Proof.
  split.
  - intros fmt eb n data rest _ _ _ L. cbn. rewrite <- L, Nat2Z.id, firstn_app, Nat.sub_diag, firstn_all. cbn [firstn]. now rewrite app_nil_r.
  - intros l rest H. cbn [verbatim cd_untable cd_table]. rewrite Nat2Z.id. induction H as [|(a, b) l (A & B) H IH]; [reflexivity|].
    cbn [length untable flat_map fst snd] in *. unfold enc_u64. rewrite <- !app_assoc.
    set (x := le_enc 8 a). set (y := le_enc 8 b). assert (LX : length x = 8%nat) by apply le_enc_length. assert (LY : length y = 8%nat) by apply le_enc_length.
    set (r := flat_map _ l ++ rest) in *.
    assert (E1 : firstn 8 (x ++ y ++ r) = x) by (rewrite <- LX, firstn_app, Nat.sub_diag, firstn_all; cbn [firstn]; apply app_nil_r).
    assert (E2 : skipn 8 (x ++ y ++ r) = y ++ r) by (rewrite <- LX, skipn_app, Nat.sub_diag, skipn_all; reflexivity).
    assert (E3 : firstn 8 (y ++ r) = y) by (rewrite <- LY, firstn_app, Nat.sub_diag, firstn_all; cbn [firstn]; apply app_nil_r).
    assert (E4 : skipn 16 (x ++ y ++ r) = r).
    { replace 16%nat with (length (x ++ y)) by (rewrite app_length, LX, LY; reflexivity). rewrite app_assoc, skipn_app, Nat.sub_diag, skipn_all. reflexivity. }
    rewrite E1, E2, E3, E4, IH. unfold x, y. rewrite !le_dec_enc. change (8 * Z.of_nat 8) with 64. rewrite !Z.mod_small by assumption. reflexivity.
Qed.
Definition plain : orders := mkOrd (fun _ l => l) (fun _ l => l) (fun _ => []).
Lemma plain_reorders : reorders plain.
Proof. split; intros; reflexivity. Qed.
Definition reversed : orders := mkOrd (fun _ l => rev l) (fun _ l => rev l) (fun _ => [112]).
Lemma reversed_reorders : reorders reversed.
Proof. split; intros; cbn; symmetry; apply Permutation.Permutation_rev. Qed.

Definition an_eb : ebfield := mkEb 0 29 0 [97] 0 (zeros 24) (zeros 24) (zeros 24) (zeros 24) (zeros 24) [].
Definition a_config : config := match new_config 7 zero_vec zero_vec [65; 66] [an_eb] true with Ok c => c | _ => mkCfg (new_header 6 30 zero_vec zero_vec true) [] [] default_info (mkExts 6 false []) end.
Lemma a_config_ok : ready a_config /\ new_config 7 zero_vec zero_vec [65; 66] [an_eb] true = Ok a_config /\ init_writer a_config no_overrides = Ok a_config.
Proof.
  assert (H1 : Forall (fun e => 0 <= eb_type e <= 30) [an_eb]) by (repeat constructor; cbn; lia).
  assert (H2 : Forall wf_eb [an_eb]) by (unfold wf_eb; repeat constructor; cbn; lia).
  destruct (new_config_good 7 zero_vec zero_vec [65; 66] [an_eb] true ltac:(lia) H1 H2 ltac:(cbn; lia) ltac:(vm_compute; reflexivity)) as (c & E & G & X).
  unfold a_config. rewrite E. split; [|split; [reflexivity|now apply init_writer_none]].
  unfold ready. split; [exact G|]. destruct X as (_ & _ & _ & _ & EB & _). rewrite EB. split; [|split; [|exact H2]].
  - unfold new_config in E. apply bind_ok in E as (z & Z' & E). apply bind_ok in E as (x & X' & E). injection E as <-. cbn [c_hdr].
    unfold new_laz_config in Z'. cbn in Z'. injection Z' as <-. cbn [z_hdr]. unfold wf_hdr, new_header. cbn. repeat split; try lia; repeat (first [lia | constructor | (vm_compute; congruence)]).
  - unfold new_config in E. apply bind_ok in E as (z & Z' & E). apply bind_ok in E as (x & X' & E). injection E as <-. unfold wf_info. vm_compute. repeat split; discriminate.
Qed.
(* run a session *)
Definition run_session (od : orders) (ops : list wop) : option (log * writer) :=
  match open_writer None a_config no_overrides with
  | Ok w0 => let '(w1, l) := wrun verbatim ops w0 in
             match close verbatim od w1 with (w, Ok _) => if forallb (fun x => match snd x with UB => false | _ => true end) l then Some (l, w) else None | _ => None end
  | _ => None
  end.
Lemma run_session_complete od ops l w : run_session od ops = Some (l, w) -> reorders od -> Forall wf_op ops -> Z.of_nat (length (file w)) < 2 ^ 64 ->
  complete_session verbatim od a_config no_overrides a_config ops l w.
Proof.
  intros H RO WF L. destruct a_config_ok as (R & _ & I). unfold run_session in H. destruct (open_writer _ _ _) as [w0| |] eqn:O; [|discriminate..].
  destruct (wrun verbatim ops w0) as (w1, l1) eqn:W. destruct (close verbatim od w1) as (w2, [[]| |]) eqn:C; [|discriminate..].
  destruct (forallb _ l1) eqn:F; [|discriminate]. injection H as <- <-. unfold complete_session.
  split; [exists w0, w1; auto|]. repeat (split; [assumption|]). split; [|exact L]. apply Forall_forall. intros (op, r) Hin U. rewrite forallb_forall in F. apply F in Hin. cbn in *. now subst r.
Qed.
(* every test on the result of a session can be computed *)
Definition check_session (od : orders) (ops : list wop) (test : log -> writer -> bool) : bool :=
  match run_session od ops with Some (l, w) => (Z.of_nat (length (file w)) <? 2 ^ 64) && test l w | None => false end.
Lemma check_session_ok od ops test : check_session od ops test = true -> reorders od -> Forall wf_op ops ->
  exists l w, complete_session verbatim od a_config no_overrides a_config ops l w /\ test l w = true.
Proof.
  unfold check_session. destruct (run_session od ops) as [(l, w)|] eqn:E; [|discriminate]. intros H RO WF. apply andb_prop in H as (L & T).
  exists l, w. split; [|exact T]. apply run_session_complete; auto. now apply Z.ltb_lt.
Qed.
Definition key_ok (k : key) : Prop := int32_key k.
Ltac wf_ops := repeat constructor; cbn; lia.
Definition k0 := root_key.
Definition k1 := mkKey 1 0 1 0.
Definition k2 := mkKey 2 1 2 0.
Definition k2' := mkKey 2 1 3 1.
(* two nodes in the root page (record length 36+12), one page below it with two nodes, one of them replaced; one rejected call *)
Definition some_calls : list wop :=
  [WAdd k0 (repeat 1 48) k0; WAddCompressed k1 [9; 9; 9] 2 k0; WAdd k2 (repeat 2 96) k1; WAddCompressed k2 [1; 2; 3; 4] 5 k1;
   WAdd k1 [7] k0; WAdd k2' (repeat 3 48) k0; WMove k2' k1].
Lemma some_calls_wf : Forall wf_op some_calls.
Proof. unfold some_calls. repeat constructor; cbn; lia. Qed.
(* decidable tests on closed files *)
Definition same_bytes (a b : bytes) : bool := if list_eq_dec Z.eq_dec a b then true else false.
Lemma same_bytes_eq a b : same_bytes a b = true -> a = b.
Proof. unfold same_bytes. now destruct (list_eq_dec Z.eq_dec a b). Qed.
Definition entry_at (f : bytes) (off size i : Z) (e : entry) : bool :=
  (0 <=? i) && (32 * i + 32 <=? size) && same_bytes (bytes_at (off + 32 * i) 32 f) (entry_pack e).
Lemma entry_at_ok f off size i e : entry_at f off size i e = true -> has_entry f off size e.
Proof. unfold entry_at. intros H. apply andb_prop in H as (H & B). apply andb_prop in H as (H1 & H2). exists i. apply same_bytes_eq in B. apply Z.leb_le in H1, H2. auto. Qed.
Fixpoint settled_b (v : view) (l : log) : bool :=
  match l with
  | [] => true
  | x :: r => (match x with
      | (WAdd k _ p, Ok _) | (WAddPoints k _ _ p, Ok _) | (WAddCompressed k _ _ p, Ok _) => match v k with Some (_, q) => key_eqb q p | None => true end
      | (WMove k _, Ok _) => match v k with Some (n, q) => key_eqb (n_page n) q | None => true end
      | _ => true end) && settled_b (see v x) r
  end.
Lemma settled_b_ok l : forall v, settled_b v l = true -> settled_from v l.
Proof.
  induction l as [|x l IH]; intros v H; [exact I|]. cbn [settled_b settled_from] in *. apply andb_prop in H as (H & R). split; [clear IH R|now apply IH].
  destruct x as (op, r). unfold calm. destruct op as [k d p|k hp c p|k d n p|k p| | |], r as [a| |]; try exact I; intros m q V; rewrite V in H; now apply key_eqb_eq.
Qed.
