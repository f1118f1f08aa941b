(* ProofCount.v - sizes of the writer's containers, and when Close succeeds *)
From Coq Require Import Permutation.
From Verif Require Import Base BaseFacts ModelFloat ModelKey ModelGeom ModelEntry ModelPoint ModelPoints ModelHeader ModelVlr ModelExtents ModelConfig
  ModelStream ModelWriter SpecKey SpecPoint SpecConfig SpecHeader SpecWriter SpecHier SpecFile ProofKey ProofPoint ProofPoint2 ProofHeader ProofExtents ProofConfig
  ProofStream ProofWriter ProofWriter2 ProofWriter3 ProofWriter4 ProofTree ProofPages ProofClose ProofClose2 ProofSession.

Lemma filter_length_le {A} (f : A -> bool) l : (length (filter f l) <= length l)%nat.
Proof. induction l as [|a l IH]; cbn; [lia|]. destruct (f a); cbn; lia. Qed.
Lemma mdel_le {V} k (m : kmap V) : (length (mdel k m) <= length m)%nat.
Proof. apply filter_length_le. Qed.
Lemma mset_le {V} k v (m : kmap V) : (length (mset k v m) <= S (length m))%nat.
Proof. unfold mset. cbn [length]. pose proof (mdel_le k m). lia. Qed.

(* at most n calls so far *)
Record few (ok : key -> Prop) (n : nat) (w : writer) : Prop := {
  fw_chunks : (length (b_chunks (w_base w)) <= n)%nat;
  fw_pages : (length (w_pages w) <= S n)%nat;
  fw_nodes : forall p P, mget p (w_pages w) = Some P -> (length (wp_nodes P) <= n)%nat;
  fw_keys : forall p, In p (map fst (w_pages w)) -> p = root_key \/ ok p }.
Lemma few_more ok n w : few ok n w -> few ok (S n) w.
Proof. intros [A B C D]. constructor; try lia; auto. intros p P H. apply C in H. lia. Qed.

Definition lens (n m : nat) (ok : key -> Prop) (pages : kmap wpage) : Prop :=
  (length pages <= m)%nat /\ (forall p P, mget p pages = Some P -> (length (wp_nodes P) <= n)%nat) /\ (forall p, In p (map fst pages) -> p = root_key \/ ok p).
Lemma lens_file ok n m p k nd pages : lens n m ok pages -> (p = root_key \/ ok p) -> lens (S n) (S m) ok (file_node p k nd pages).
Proof.
  intros (A & B & C) OK. split; [|split].
  - unfold file_node. cbv zeta. set (q := mkWP _ _ _ _). clearbody q. destruct (mhas p pages) eqn:M; [pose proof (mset_le p q pages); lia|].
    unfold mset. cbn [length]. unfold mdel at 1. cbn [filter fst]. rewrite key_eqb_refl. cbn [negb]. pose proof (mdel_le p (mdel p pages)). pose proof (mdel_le p pages). fold (mdel p (mdel p pages)). lia.
  - intros q P. rewrite file_node_get. destruct (key_eqb_spec p q) as [<-|N]; [|intros H; apply B in H; lia]. intros [= <-]. cbn [wp_nodes].
    pose proof (mset_le k nd (wp_nodes match mget p pages with Some P => P | None => new_wpage end)).
    destruct (mget p pages) as [P|] eqn:E; [apply B in E; lia|cbn [wp_nodes new_wpage] in *; cbn [length] in *; lia].
  - intros q Q. apply mget_some_in in Q as (P & E). rewrite file_node_get in E. destruct (key_eqb_spec p q) as [<-|N]; [exact OK|]. apply C, mget_some_in. eauto.
Qed.
Lemma lens_move ok n m k page w w' r : change_node_page k page w = (w', r) -> (ok page \/ page = root_key) -> lens n m ok (w_pages w) -> lens (S n) (S m) ok (w_pages w').
Proof.
  intros H OK L. assert (L' : lens (S n) (S m) ok (w_pages w)).
  { destruct L as (A & B & C). split; [lia|]. split; [|exact C]. intros p P E. apply B in E. lia. }
  unfold change_node_page in H. destruct (negb (key_valid k)); [injection H as <- _; exact L'|].
  destruct (key_valid page) eqn:VP; cbn [negb] in H; [|injection H as <- _; exact L'].
  destruct (mget k (w_loaded w)) as [nd|]; [|injection H as <- _; exact L']. destruct (negb (child_of k page)); [injection H as <- _; exact L'|].
  destruct (key_eqb (n_page nd) page); [injection H as <- _; exact L'|]. clear L'.
  change (mset page _ _) with (file_node page k nd (w_pages w)) in H.
  pose proof (lens_file ok n m page k nd (w_pages w) L ltac:(tauto)) as LF. set (pg := file_node page k nd (w_pages w)) in *. clearbody pg. clear L.
  destruct (mget (n_page nd) pg) as [q|] eqn:EQ; apply (f_equal fst) in H; cbn [fst] in H; subst w'; cbn [w_pages]; [|exact LF].
  set (q' := mkWP (wp_off q) (wp_size q) (mdel k (wp_nodes q)) (wp_subs q)). destruct LF as (A & B & C).
  assert (L2 : lens (S n) (S m) ok (mset (n_page nd) q' pg)).
  { split; [|split].
    - unfold mset. cbn [length]. enough (length (mdel (n_page nd) pg) < length pg)%nat by lia.
      apply mget_in in EQ. unfold mdel. clear - EQ. induction pg as [|(x, y) pg IH]; [destruct EQ|]. cbn [filter fst length].
      destruct (key_eqb_spec x (n_page nd)) as [->|N]; cbn [negb length].
      + pose proof (filter_length_le (fun p : key * wpage => negb (key_eqb (fst p) (n_page nd))) pg). lia.
      + destruct EQ as [[= ? ?]|EQ]; [congruence|]. specialize (IH EQ). lia.
    - intros p P. rewrite mget_mset. destruct (key_eqb (n_page nd) p); [|apply B]. intros [= <-]. unfold q'. cbn [wp_nodes]. apply B in EQ. pose proof (mdel_le k (wp_nodes q)). lia.
    - intros p P. apply mset_keys in P as [->|P]; [|now apply C]. apply C, mget_some_in. eauto. }
  destruct (_ && _); [|exact L2]. destruct L2 as (A2 & B2 & C2). split; [pose proof (mdel_le (n_page nd) (mset (n_page nd) q' pg)); lia|]. split.
  - intros p P. rewrite mget_mdel. destruct (key_eqb (n_page nd) p); [discriminate|apply B2].
  - intros p P. apply mdel_keys in P as (P & _). now apply C2.
Qed.

Lemma step_few cd (ok : key -> Prop) n op w w' r start cs : wf_op op -> 0 < start -> cfg_ok (w_cfg w) -> binv start cs (w_base w) ->
  wstep cd op w = (w', r) -> Z.of_nat (length (file w')) < 2 ^ 64 -> r <> UB -> (forall x p, r = Ok x -> target_page op = Some p -> ok p) -> few ok n w -> few ok (S n) w'.
Proof.
  intros WF S G I H L NU OK F. destruct (add_args op) as [(k, p)|] eqn:A.
  - destruct (wstep_add _ _ _ _ _ _ _ _ _ A WF S G I H L) as [(-> & R)|(x & m & C & CO & N1 & N2 & N3 & B & _ & T)]; [now apply few_more|].
    assert (LC : (length (b_chunks (w_base w')) <= Datatypes.S n)%nat).
    { destruct B as (_ & _ & _ & B & _). destruct I as (_ & _ & _ & I & _). rewrite B, cends_app, app_length. rewrite <- I. cbn. pose proof (fw_chunks _ _ _ F). lia. }
    destruct F as [F1 F2 F3 F4]. destruct T as [(Hx & -> & T1 & T2)|(Hx & -> & T1 & T2)].
    + constructor; rewrite ?T2; auto. intros q Q E. apply F3 in E. lia.
    + destruct (lens_file ok n (Datatypes.S n) p k (mkNode (mkEntry k (start + Z.of_nat (length (cdata cs))) (Z.of_nat (length x)) m) p) (w_pages w)) as (X1 & X2 & X3).
      { now repeat split. } { right. eapply OK; [reflexivity|]. destruct op; try discriminate A; injection A as _ <-; reflexivity. }
      rewrite <- T2 in *. constructor; auto.
  - destruct (wstep_other _ _ _ _ _ A WF G H) as (F1 & F2 & _ & _ & R & F3). pose proof F as [G1 G2 G3 G4].
    assert (LB : (length (b_chunks (w_base w')) <= Datatypes.S n)%nat) by (rewrite F1; lia).
    destruct op as [| | |k page|h|i|slot e]; try discriminate A.
    { cbn [wstep] in H. destruct (change_node_page k page w) as (w1, r1) eqn:E.
      destruct R as [->|[(-> & ->)|X]]; [|now apply few_more|congruence].
      assert (w' = w1) as -> by (destruct r1; apply (f_equal fst) in H; symmetry; exact H).
      apply (lens_move ok n (Datatypes.S n)) in E as (X1 & X2 & X3); [constructor; auto| |now repeat split].
      left. eapply OK; reflexivity. }
    all: constructor; rewrite ?F3 by discriminate; auto; intros q Q E; apply G3 in E; lia.
Qed.
Lemma run_few cd (ok : key -> Prop) ops : forall w w' l start cs n, Forall wf_op ops -> 0 < start -> cfg_ok (w_cfg w) -> binv start cs (w_base w) ->
  wrun cd ops w = (w', l) -> Z.of_nat (length (file w')) < 2 ^ 64 -> all_defined l -> (forall op x p, In (op, Ok x) l -> target_page op = Some p -> ok p) ->
  few ok n w -> few ok (length ops + n) w'.
Proof.
  induction ops as [|op ops IH]; intros w w' l start cs n WF S G I H L AD OK F.
  { cbn [wrun] in H. injection H as <- <-. exact F. }
  inversion WF as [|? ? W1 W2]; subst. cbn [wrun] in H. destruct (wstep cd op w) as (w1, r) eqn:E.
  pose proof (wstep_grows _ _ _ _ _ (proj1 I) E) as GR.
  assert (Rest : (l = [(op, UB)]) \/ exists l2, wrun cd ops w1 = (w', l2) /\ l = (op, r) :: l2).
  { destruct r; [right|right|left]; [destruct (wrun cd ops w1) as (w2, l2); injection H as <- <-; eauto..|injection H as <- <-; auto]. }
  destruct Rest as [->|(l2 & R & ->)]; [inversion AD; subst; cbn in *; congruence|].
  inversion AD as [|? ? A1 A2]; subst. cbn [snd] in A1.
  pose proof (wrun_grows _ _ _ _ _ (proj1 GR) R) as GR2. pose proof (grows_le _ _ GR2) as LE.
  destruct (step_base _ _ _ _ _ _ _ W1 S G I E ltac:(lia)) as (cs1 & B & G1 & X & _).
  assert (F' : few ok (Datatypes.S n) w1).
  { refine (step_few _ _ _ _ _ _ _ _ _ W1 S G I E _ A1 _ F); [lia|]. intros x p -> T. eapply OK; [now left|exact T]. }
  specialize (IH _ _ _ _ _ _ W2 S G1 B R L A2 ltac:(intros o x p Hin; apply (OK o x p); now right) F').
  cbn [length]. replace (Datatypes.S (length ops) + n)%nat with (length ops + Datatypes.S n)%nat by lia. exact IH.
Qed.

Lemma nodup_le {A} (a b : list A) : NoDup a -> incl a b -> (length a <= length b)%nat.
Proof. apply NoDup_incl_length. Qed.
Lemma close_succeeds cd od c v c0 ops w0 w1 l w r : init_writer c v = Ok c0 -> ready c0 -> Forall wf_op ops -> reorders od ->
  open_writer None c v = Ok w0 -> wrun cd ops w0 = (w1, l) -> all_defined l ->
  (forall op x p, In (op, Ok x) l -> target_page op = Some p -> in_octree p) -> Z.of_nat (length ops) < 2 ^ 25 -> ordered_bounds (c_hdr (w_cfg w1)) ->
  close cd od w1 = (w, r) -> Z.of_nat (length (file w)) < 2 ^ 64 -> r = Ok tt.
Proof.
  intros E RD WF RO O R AD OCT N OB CL L. pose proof (close_ge _ _ _ _ _ CL) as GE.
  destruct (run_history _ _ _ _ _ _ _ _ O E RD WF R ltac:(lia)) as (cs & HS).
  destruct (open_inv _ _ _ _ O E RD) as (C & G & S & B & HI).
  assert (F0 : few in_octree 0 w0).
  { destruct (open_spec _ _ _ O) as (c1 & _ & _ & poff & _ & ->). constructor; cbn; auto.
    - intros p P. destruct (key_eqb root_key p); [intros [= <-]; cbn; lia|discriminate].
    - intros p [<-|[]]. now left. }
  pose proof (run_few _ _ _ _ _ _ _ _ _ WF S ltac:(rewrite C; exact G) B R ltac:(lia) AD OCT F0) as F. rewrite Nat.add_0_r in F.
  destruct (close_history _ _ _ _ _ _ _ _ _ RO HS CL L) as [(-> & X)|(-> & _)]; [|reflexivity]. exfalso.
  assert (N25 : 2 ^ 25 = 33554432) by reflexivity. rewrite N25 in N. destruct X as [X|[X|[X|X]]].
  - destruct (hs_base _ _ _ _ _ _ HS) as (_ & _ & _ & BC & _). pose proof (fw_chunks _ _ _ F) as FC. rewrite BC in FC.
    assert (length (cends (data_start c0 + 8) cs) = length cs) by (clear; generalize (data_start c0 + 8); induction cs as [|(x, y) cs IH]; intros s; cbn; [reflexivity|now rewrite IH]).
    unfold UINT32_MAX in X. lia.
  - destruct X as (k & K1 & K2 & K3). apply (fw_keys _ _ _ F) in K1 as [K1|K1]; [contradiction|]. apply in_octree_root in K1.
    destruct (hs_pages _ _ _ _ _ _ HS) as (_ & _ & RT & _). apply K2. symmetry. now apply K3.
  - destruct X as (PG & CH & x & P & EP & BIG). destruct (hs_pages _ _ _ _ _ _ HS) as (P1 & P2 & P3 & P4).
    destruct (compute_tree _ P1 P2 P3 P4) as [(PG' & CH' & T & K & NN)|(CH' & _)]; [|congruence]. rewrite CH in CH'. injection CH' as <-.
    specialize (NN x). rewrite EP in NN. destruct (mget x (w_pages w1)) as [Q|] eqn:EQ; [|contradiction]. destruct NN as (_ & _ & NN).
    pose proof (fw_nodes _ _ _ F _ _ EQ) as FN. rewrite <- NN in FN.
    assert (SB : (length (wp_subs P) <= length (w_pages w1))%nat).
    { rewrite <- (map_length fst (w_pages w1)). apply nodup_le.
      - pose proof (tr_subs_nd _ T x) as ND. unfold subs_of in ND. now rewrite EP in ND.
      - intros s Hs. apply K. apply (tr_sub _ T x). unfold subs_of. now rewrite EP. }
    pose proof (fw_pages _ _ _ F). unfold INT32_MAX in BIG. lia.
  - contradiction.
Qed.
(* the number of pages *)
Lemma pages_few cd c v c0 ops w0 w1 l : init_writer c v = Ok c0 -> ready c0 -> Forall wf_op ops -> open_writer None c v = Ok w0 -> wrun cd ops w0 = (w1, l) -> all_defined l ->
  Z.of_nat (length (file w1)) < 2 ^ 64 -> (length (w_pages w1) <= S (length ops))%nat.
Proof.
  intros E RD WF O R AD L. destruct (open_inv _ _ _ _ O E RD) as (C & G & S & B & HI).
  assert (F0 : few (fun _ => True) 0 w0).
  { destruct (open_spec _ _ _ O) as (c1 & _ & _ & poff & _ & ->). constructor; cbn; auto.
    intros p P. destruct (key_eqb root_key p); [intros [= <-]; cbn; lia|discriminate]. }
  pose proof (run_few _ (fun _ => True) _ _ _ _ _ _ _ WF S ltac:(rewrite C; exact G) B R L AD (fun _ _ _ _ _ => I) F0) as F. rewrite Nat.add_0_r in F. apply F.
Qed.
