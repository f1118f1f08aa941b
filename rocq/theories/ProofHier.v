(* ProofHier.v - the hierarchy of a closed file *)
From Coq Require Import Permutation.
From Verif Require Import Base BaseFacts ModelFloat ModelKey ModelGeom ModelEntry ModelPoint ModelPoints ModelHeader ModelVlr ModelExtents ModelConfig
  ModelStream ModelWriter SpecKey SpecPoint SpecConfig SpecHeader SpecWriter SpecHier SpecFile ProofKey ProofPoint ProofPoint2 ProofHeader ProofExtents ProofConfig
  ProofStream ProofWriter ProofWriter2 ProofWriter3 ProofWriter4 ProofTree ProofPages ProofClose ProofClose2 ProofSession ProofFile.

Lemma page_entries_grow od k P ws x : (forall s, In s (od_subs od k (wp_subs P)) -> find_page s ws <> None) -> page_entries od k P (ws ++ x) = page_entries od k P ws.
Proof.
  intros H. unfold page_entries. f_equal. apply map_ext_in. intros s S. unfold sub_entry. rewrite find_page_app. specialize (H s S).
  destruct (find_page s ws); congruence.
Qed.
Lemma pages_at_entries od PG D ws : reorders od -> pages_at od PG D ws -> forall i, In i ws ->
  exists P, mget (pi_key i) PG = Some P /\ pi_ents i = page_entries od (pi_key i) P ws /\ forall s, In s (wp_subs P) -> find_page s ws <> None.
Proof.
  intros (_ & RS) H. induction H as [|ws k P H IH E1 E2 E3 size FIT]; intros i I; [destruct I|].
  assert (MONO : forall s x, find_page s ws <> None -> find_page s (ws ++ x) <> None).
  { intros s x F. rewrite find_page_app. now destruct (find_page s ws). }
  apply in_app_iff in I as [I|[<-|[]]].
  - destruct (IH i I) as (Q & A & B & F). exists Q. split; [exact A|]. split; [|intros s S; apply MONO, F, S].
    rewrite page_entries_grow; [exact B|]. intros s S. apply F. apply (Permutation_in _ (RS _ _) S).
  - exists P. split; [exact E1|]. split; [|intros s S; apply MONO, E3, S]. cbn [pi_ents]. symmetry. apply page_entries_grow. intros s S. apply E3.
    apply (Permutation_in _ (RS _ _) S).
Qed.
Lemma nodup_flat_map {A B} (f : A -> list B) l : NoDup l -> (forall a, In a l -> NoDup (f a)) -> (forall a b x, In a l -> In b l -> In x (f a) -> In x (f b) -> a = b) ->
  NoDup (flat_map f l).
Proof.
  intros ND. induction ND as [|a l N ND IH]; intros F D; [constructor|]. cbn [flat_map]. apply nodup_app.
  - apply F. now left.
  - apply IH; [intros b B0; apply F; now right|]. intros b c x B0 C0. apply D; now right.
  - intros x X Y. apply in_flat_map in Y as (b & B0 & Y). assert (a = b) as -> by (eapply D; eauto; [now left|now right]). contradiction.
Qed.
Lemma filter_flat_map {A B} (f : A -> list B) p l : filter p (flat_map f l) = flat_map (fun a => filter p (f a)) l.
Proof. induction l as [|a l IH]; [reflexivity|]. cbn [flat_map]. now rewrite filter_app, IH. Qed.
Lemma map_flat_map {A B C} (f : A -> list B) (g : B -> C) l : map g (flat_map f l) = flat_map (fun a => map g (f a)) l.
Proof. induction l as [|a l IH]; [reflexivity|]. cbn [flat_map]. now rewrite map_app, IH. Qed.
Lemma filter_none {A} p (l : list A) : (forall a, In a l -> p a = false) -> filter p l = [].
Proof. induction l as [|a l IH]; intros H; [reflexivity|]. cbn [filter]. rewrite (H a (or_introl eq_refl)). apply IH. intros b B. apply H. now right. Qed.
Lemma filter_all {A} p (l : list A) : (forall a, In a l -> p a = true) -> filter p l = l.
Proof. induction l as [|a l IH]; intros H; [reflexivity|]. cbn [filter]. rewrite (H a (or_introl eq_refl)). f_equal. apply IH. intros b B. apply H. now right. Qed.
Lemma nodup_map_inv {A B} (f : A -> B) l a b : NoDup (map f l) -> In a l -> In b l -> f a = f b -> a = b.
Proof.
  induction l as [|x l IH]; intros ND I J E; [destruct I|]. cbn [map] in ND. inversion ND as [|? ? N1 N2]; subst.
  destruct I as [<-|I], J as [<-|J]; auto.
  - destruct N1. rewrite E. now apply in_map.
  - destruct N1. rewrite <- E. now apply in_map.
Qed.

Section Hier.
Variables (cd : codec) (od : orders) (w : writer) (cs : list (bytes * Z)) (PG : kmap wpage) (ws : list page_info) (l : header14) (w' : writer) (v : view).
Hypotheses (RO : reorders od) (C : closed cd od w cs PG ws l w') (HI : hinv v w) (LEN : Z.of_nat (length (file w')) < 2 ^ 64)
  (NOK : forall k n p, v k = Some (n, p) -> wf_entry (n_entry n) = true /\ entry_valid (n_entry n) = true /\ e_count (n_entry n) <> -1).

Lemma ws_nodup : NoDup (map pi_key ws).
Proof. eapply Permutation_NoDup; [apply Permutation_sym, (cl_perm _ _ _ _ _ _ _ _ C)|]. apply (tr_nd _ (cl_tree _ _ _ _ _ _ _ _ C)). Qed.
Lemma ws_keys k : In k (map pi_key ws) <-> In k (map fst PG).
Proof. split; apply Permutation_in; [|apply Permutation_sym]; apply (cl_perm _ _ _ _ _ _ _ _ C). Qed.
Lemma ws_unique i j : In i ws -> In j ws -> pi_key i = pi_key j -> i = j.
Proof. apply nodup_map_inv, ws_nodup. Qed.
Lemma ws_find i : In i ws -> find_page (pi_key i) ws = Some i.
Proof.
  intros I. destruct (find_page (pi_key i) ws) as [j|] eqn:E.
  - apply find_page_key in E as (E & J). f_equal. now apply ws_unique.
  - apply find_page_none in E. destruct E. now apply in_map.
Qed.
(* what a stored page contains *)
Lemma ws_ents i e : In i ws -> (In e (pi_ents i) <->
  (exists n, v (e_key e) = Some (n, pi_key i) /\ n_entry n = e) \/
  (exists j, In j ws /\ In (pi_key j) (subs_of PG (pi_key i)) /\ e = mkEntry (pi_key j) (pi_off j) (pi_size j) (-1))).
Proof.
  intros I. destruct RO as (RN & RS). destruct (pages_at_entries _ _ _ _ RO (cl_at _ _ _ _ _ _ _ _ C) i I) as (P & EP & EE & F).
  pose proof (cl_nodes _ _ _ _ _ _ _ _ C (pi_key i)) as CN. rewrite EP in CN. destruct (mget (pi_key i) (w_pages w)) as [Q|] eqn:EQ; [|destruct CN].
  destruct (hi_page _ _ HI _ _ EQ) as (_ & _ & _ & NDQ & HV & _). rewrite <- CN in *. rewrite EE. unfold page_entries. rewrite in_app_iff.
  assert (SO : subs_of PG (pi_key i) = wp_subs P) by (unfold subs_of; now rewrite EP). rewrite SO.
  split; intros [H|H]; [left|right|left|right].
  - apply in_map_iff in H as (n & <- & N). apply (Permutation_in _ (RN _ _)) in N. apply in_map_iff in N as ((k, n') & E & N). cbn [snd] in E. subst n'.
    apply in_mget in N; [|exact NDQ]. apply HV in N. destruct (hi_view _ _ HI _ _ _ N) as (_ & EK & _). exists n. now rewrite EK.
  - apply in_map_iff in H as (s & <- & S). apply (Permutation_in _ (RS _ _)) in S. pose proof (F s S) as FS. unfold sub_entry.
    destruct (find_page s ws) as [j|] eqn:EJ; [|congruence]. apply find_page_key in EJ as (<- & J). exists j. auto.
  - destruct H as (n & V & <-). apply in_map. apply (Permutation_in _ (Permutation_sym (RN _ _))). apply HV in V. apply mget_in in V.
    apply in_map_iff. exists (e_key (n_entry n), n). now split.
  - destruct H as (j & J & S & ->). apply in_map_iff. exists (pi_key j). split; [|now apply (Permutation_in _ (Permutation_sym (RS _ _)))].
    unfold sub_entry. now rewrite (ws_find j J).
Qed.
Lemma node_not_sub k n p : v k = Some (n, p) -> is_sub (n_entry n) = false.
Proof. intros V. unfold is_sub. destruct (NOK _ _ _ V) as (_ & _ & N). lia. Qed.
Lemma ws_nodes_of i : In i ws -> filter (fun e => negb (is_sub e)) (pi_ents i) = map n_entry (od_nodes od (pi_key i) (map snd (match mget (pi_key i) PG with Some P => wp_nodes P | None => [] end))) /\
  map e_key (filter is_sub (pi_ents i)) = od_subs od (pi_key i) (subs_of PG (pi_key i)).
Proof.
  intros I. destruct RO as (RN & RS). destruct (pages_at_entries _ _ _ _ RO (cl_at _ _ _ _ _ _ _ _ C) i I) as (P & EP & EE & F).
  pose proof (fun e => proj1 (ws_ents i e I)) as WE. rewrite EE in *. unfold page_entries in *. rewrite EP. unfold subs_of. rewrite EP.
  assert (N1 : forall a, In a (map n_entry (od_nodes od (pi_key i) (map snd (wp_nodes P)))) -> is_sub a = false).
  { intros a A. pose proof (cl_nodes _ _ _ _ _ _ _ _ C (pi_key i)) as CN. rewrite EP in CN. destruct (mget (pi_key i) (w_pages w)) as [Q|] eqn:EQ; [|destruct CN].
    destruct (hi_page _ _ HI _ _ EQ) as (_ & _ & _ & NDQ & HV & _). rewrite <- CN in *.
    apply in_map_iff in A as (n & <- & N). apply (Permutation_in _ (RN _ _)) in N. apply in_map_iff in N as ((k, n') & E & N). cbn [snd] in E. subst n'.
    apply in_mget in N; [|exact NDQ]. apply HV in N. eapply node_not_sub; eauto. }
  assert (N2 : forall s, In s (od_subs od (pi_key i) (wp_subs P)) -> exists j, sub_entry ws s = mkEntry s (pi_off j) (pi_size j) (-1)).
  { intros s S. apply (Permutation_in _ (RS _ _)) in S. pose proof (F s S) as FS. unfold sub_entry. destruct (find_page s ws) as [j|]; [eauto|congruence]. }
  rewrite !filter_app. split.
  - rewrite filter_all by (intros a A; now rewrite N1). rewrite filter_none; [apply app_nil_r|].
    intros a A. apply in_map_iff in A as (s & <- & S). destruct (N2 s S) as (j & ->). reflexivity.
  - rewrite filter_none by exact N1. rewrite filter_all. { cbn [app]. rewrite map_map. rewrite <- (map_id (od_subs od (pi_key i) (wp_subs P))) at 2. apply map_ext_in. intros s S. destruct (N2 s S) as (j & ->). reflexivity. }
    intros a A. apply in_map_iff in A as (s & <- & S). destruct (N2 s S) as (j & ->). reflexivity.
Qed.
Lemma page_in_hinv k : In k (map fst PG) -> exists P, mget k (w_pages w) = Some P.
Proof. intros K. apply (cl_keys _ _ _ _ _ _ _ _ C) in K. now apply mget_some_in in K. Qed.

Lemma closed_hierarchy : stored_hierarchy (file w') (i_root_off (c_info (w_cfg w'))) (i_root_size (c_info (w_cfg w'))) ws /\ stores_view ws v /\
  (forall p, In p (map pi_key ws) <-> page_of_view v p).
Proof.
  pose proof (cl_tree _ _ _ _ _ _ _ _ C) as T.
  assert (RT : In root_key (map pi_key ws)) by (apply ws_keys, (tr_root _ T)).
  split; [constructor|split].
  - exact ws_nodup.
  - apply in_map_iff in RT as (r & RK & R). exists r. split; [exact R|]. split; [exact RK|]. rewrite (cl_cfg _ _ _ _ _ _ _ _ C). unfold cfg_with.
    rewrite <- RK, (ws_find r R). cbn. auto.
  - intros i I. destruct (page_bytes _ _ _ _ _ _ _ _ RO C i I) as (A & B & D & E & F). repeat split; auto; lia.
  - intros i e I E. apply (ws_ents i e I) in E as [(n & V & <-)|(j & J & S & ->)].
    + destruct (NOK _ _ _ V) as (A & B & _). destruct (hi_view _ _ HI _ _ _ V) as (_ & _ & X & _). auto.
    + destruct (sub_depth _ _ _ T S) as (_ & _ & JP & _ & CO). destruct (page_bytes _ _ _ _ _ _ _ _ RO C j J) as (_ & _ & O1 & O2 & O3). unfold INT32_MAX in O3.
      destruct (page_in_hinv _ JP) as (Q & EQ). destruct (hi_page _ _ HI _ _ EQ) as (VJ & I32 & _). cbn [e_key].
      split; [|split; [|exact CO]].
      * unfold wf_entry, wf_key, u64, i32, in_range, INT32_MIN, INT32_MAX. cbn [e_key e_offset e_size e_count]. destruct I32 as (B1 & B2 & B3 & B4). lia.
      * unfold entry_valid. cbn [e_key e_offset e_size]. apply key_valid_spec in VJ. rewrite VJ. lia.
  - unfold node_entries, all_entries. rewrite filter_flat_map, map_flat_map. apply nodup_flat_map.
    + eapply NoDup_map_inv, ws_nodup.
    + intros i I. destruct (ws_nodes_of i I) as (E & _). rewrite E, map_map. destruct RO as (RN & _).
      eapply Permutation_NoDup; [apply Permutation_map, Permutation_sym, RN|].
      pose proof (cl_nodes _ _ _ _ _ _ _ _ C (pi_key i)) as CN.
      destruct (mget (pi_key i) PG) as [P|]; [|constructor]. destruct (mget (pi_key i) (w_pages w)) as [Q|] eqn:EQ; [|destruct CN].
      destruct (hi_page _ _ HI _ _ EQ) as (_ & _ & _ & NDQ & HV & _). rewrite CN, map_map.
      erewrite map_ext_in; [exact NDQ|]. intros (k, n) N. cbn [fst snd]. apply in_mget in N; [|exact NDQ]. apply HV in N. now destruct (hi_view _ _ HI _ _ _ N) as (_ & EK & _).
    + intros i j k I J KI KJ. apply in_map_iff in KI as (e & <- & KI). apply in_map_iff in KJ as (e' & EK & KJ).
      apply filter_In in KI as (KI & SI). apply filter_In in KJ as (KJ & SJ).
      apply (ws_ents i e I) in KI as [(n & V & <-)|(x & _ & _ & ->)]; [|discriminate SI]. apply (ws_ents j e' J) in KJ as [(n' & V' & <-)|(x & _ & _ & ->)]; [|discriminate SJ].
      rewrite EK in V'. rewrite V in V'. injection V' as _ E. now apply ws_unique.
  - unfold sub_entries, all_entries. rewrite filter_flat_map, map_flat_map. apply nodup_flat_map.
    + eapply NoDup_map_inv, ws_nodup.
    + intros i I. destruct (ws_nodes_of i I) as (_ & E). rewrite E. destruct RO as (_ & RS).
      eapply Permutation_NoDup; [apply Permutation_sym, RS|]. apply (tr_subs_nd _ T).
    + intros i j k I J KI KJ. destruct (ws_nodes_of i I) as (_ & EI). destruct (ws_nodes_of j J) as (_ & EJ). rewrite EI in KI. rewrite EJ in KJ. destruct RO as (_ & RS).
      apply (Permutation_in _ (RS _ _)) in KI, KJ. apply ws_unique; auto. eapply sub_unique; eauto.
  - intros i e I E SE. apply (ws_ents i e I) in E as [(n & V & <-)|(j & J & S & ->)]; [rewrite (node_not_sub _ _ _ V) in SE; discriminate|]. cbn [e_key e_offset e_size].
    destruct (sub_depth _ _ _ T S) as (DD & _ & JP & _ & CO). split; [intros X; rewrite X in DD; lia|]. exists j. repeat (split; [auto|]).
    intros q Q CQ. apply (tr_sub _ T) in S as (_ & _ & (_ & _ & NR)). apply child_of_parent in CQ; [|apply (tr_valid _ T _ JP)]. destruct CQ as [CQ|CQ]; [now left|right].
    apply NR; [|exact CQ]. apply ws_keys. now apply in_map.
  - intros j J NR. assert (JP : In (pi_key j) (map fst PG)) by (apply ws_keys; now apply in_map). destruct (tr_up _ T _ JP NR) as (k & S).
    assert (KW : In k (map pi_key ws)) by (apply ws_keys; apply (sub_depth _ _ _ T S)). apply in_map_iff in KW as (i & <- & I).
    exists (mkEntry (pi_key j) (pi_off j) (pi_size j) (-1)). split; [|reflexivity]. unfold sub_entries, all_entries. apply filter_In. split; [|reflexivity].
    apply in_flat_map. exists i. split; [exact I|]. apply (ws_ents i _ I). right. eauto.
  - split; [intros k n p V|intros i e I E SE; apply (ws_ents i e I) in E as [X|(j & _ & _ & ->)]; [exact X|discriminate SE]].
    destruct (hi_view _ _ HI _ _ _ V) as ((P & EP) & EK & _). assert (KW : In p (map pi_key ws)).
    { apply ws_keys, (cl_keys _ _ _ _ _ _ _ _ C), mget_some_in. eauto. }
    apply in_map_iff in KW as (i & <- & I). exists i. repeat (split; [auto|]); [|exact EK]. apply (ws_ents i _ I). left. exists n. now rewrite EK.
  - intros p. rewrite ws_keys, (cl_keys _ _ _ _ _ _ _ _ C). split.
    + intros P. apply mget_some_in in P as (Q & EQ). destruct (hi_page _ _ HI _ _ EQ) as (_ & _ & _ & _ & _ & X).
      destruct (key_eqb_spec p root_key) as [->|N]; [now left|right; auto].
    + intros [->|(k & n & V)]; apply mget_some_in; [apply HI|]. apply (hi_view _ _ HI _ _ _ V).
Qed.
End Hier.
