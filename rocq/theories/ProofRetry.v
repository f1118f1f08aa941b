(* ProofRetry.v - Close after a Close that threw *)
From Coq Require Import Permutation.
From Verif Require Import Base BaseFacts ModelFloat ModelKey ModelGeom ModelEntry ModelPoint ModelPoints ModelHeader ModelVlr ModelExtents ModelConfig
  ModelStream ModelWriter ModelTrace SpecKey SpecPoint SpecConfig SpecHeader SpecWriter ProofKey ProofStream ProofHeader ProofConfig
  ProofWriter ProofWriter2 ProofWriter4 ProofClose ProofClose2 ProofTree ProofSession ProofTrace ProofTrace3 ProofTrace6.
Open Scope Z_scope.

Definition content (p : wpage) := (wp_nodes p, wp_subs p).
(* the same pages with the same nodes and sub-pages *)
Definition same_pages (P Q : kmap wpage) : Prop := forall k, option_map content (mget k P) = option_map content (mget k Q).
(* every page is still there, with the same nodes and at least the same sub-pages *)
Definition more_pages (P Q : kmap wpage) : Prop := forall k p, mget k P = Some p ->
  exists q, mget k Q = Some q /\ wp_nodes q = wp_nodes p /\ incl (wp_subs p) (wp_subs q) /\ (length (wp_subs p) <= length (wp_subs q))%nat.
Inductive reach (P : kmap wpage) : key -> key -> Prop :=
| reach_here k : reach P k k
| reach_sub k p s k' : mget k P = Some p -> In s (wp_subs p) -> reach P s k' -> reach P k k'.
Definition big_page (P : kmap wpage) (k : key) : Prop :=
  exists p, mget k P = Some p /\ INT32_MAX < 32 * Z.of_nat (length (wp_nodes p)) + 32 * Z.of_nat (length (wp_subs p)).
Lemma same_refl P : same_pages P P. Proof. now intros k. Qed.
Lemma same_trans P Q R : same_pages P Q -> same_pages Q R -> same_pages P R. Proof. intros A B k. now rewrite A. Qed.
Lemma same_sym P Q : same_pages P Q -> same_pages Q P. Proof. intros A k. now rewrite A. Qed.
Lemma same_get P Q k p : same_pages P Q -> mget k P = Some p -> exists q, mget k Q = Some q /\ wp_nodes q = wp_nodes p /\ wp_subs q = wp_subs p.
Proof. intros A E. specialize (A k). rewrite E in A. cbn in A. destruct (mget k Q) as [q|]; [|discriminate]. exists q. unfold content in A. cbn in A. split; [reflexivity|split; congruence]. Qed.
Lemma same_more P Q : same_pages P Q -> more_pages P Q.
Proof. intros A k p E. destruct (same_get _ _ _ _ A E) as (q & Q1 & Q2 & Q3). exists q. rewrite Q2, Q3. split; [exact Q1|]. split; [reflexivity|]. split; [apply incl_refl|lia]. Qed.
Lemma more_trans P Q R : more_pages P Q -> more_pages Q R -> more_pages P R.
Proof.
  intros A B k p E. destruct (A _ _ E) as (q & Q1 & Q2 & Q3 & Q4). destruct (B _ _ Q1) as (r & R1 & R2 & R3 & R4). exists r. split; [exact R1|]. split; [congruence|].
  split; [eapply incl_tran; eauto|lia].
Qed.
Lemma more_reach P Q : more_pages P Q -> forall k k', reach P k k' -> reach Q k k'.
Proof. intros M k k' R. induction R as [k|k p s k' E I R IH]; [constructor|]. destruct (M _ _ E) as (q & Q1 & _ & Q3 & _). econstructor; [exact Q1|apply Q3; exact I|exact IH]. Qed.
Lemma more_big P Q k : more_pages P Q -> big_page P k -> big_page Q k.
Proof. intros M (p & E & B). destruct (M _ _ E) as (q & Q1 & Q2 & Q3 & Q4). exists q. split; [exact Q1|]. rewrite Q2. lia. Qed.

Lemma add_sub_more p k P : more_pages P (add_sub p k P).
Proof.
  unfold add_sub. destruct (mget p P) as [q|] eqn:E; [|apply same_more, same_refl]. intros k' r E'. rewrite mget_mset. destruct (key_eqb_spec p k') as [<-|N].
  - rewrite E in E'. injection E' as <-. eexists. split; [reflexivity|]. cbn [wp_nodes wp_subs]. split; [reflexivity|]. unfold set_add. destruct (existsb _ _); [split; [apply incl_refl|lia]|].
    split; [apply incl_appl, incl_refl|rewrite app_length; lia].
  - exists r. split; [exact E'|]. split; [reflexivity|]. split; [apply incl_refl|lia].
Qed.
Lemma compute_more todo : forall P Q, compute_hierarchy todo P = Ok Q -> more_pages P Q.
Proof.
  induction todo as [|k todo IH]; intros P Q H; cbn [compute_hierarchy] in H; [injection H as <-; apply same_more, same_refl|]. destruct (key_eqb k root_key); [now apply IH|].
  destruct (parent_page _ _ _) as [p| |]; [|discriminate..]. cbn [bind] in H. eapply more_trans; [apply (add_sub_more p k)|now apply IH].
Qed.

Lemma page_same od k w : same_pages (w_pages w) (w_pages (fst (write_page od k w))).
Proof.
  unfold write_page. destruct (mget k (w_pages w)) as [p|] eqn:E; [|apply same_refl]. cbv zeta.
  assert (S : forall o z, same_pages (w_pages w) (mset k (mkWP o z (wp_nodes p) (wp_subs p)) (w_pages w))).
  { intros o z k'. rewrite mget_mset. destruct (key_eqb_spec k k') as [<-|N]; [rewrite E; reflexivity|reflexivity]. }
  destruct (_ <? _); cbn [fst]; [apply S|]. destruct (key_eqb k root_key); apply S.
Qed.
Lemma page_throw od k w w' : write_page od k w = (w', Throw) -> big_page (w_pages w) k.
Proof.
  unfold write_page. destruct (mget k (w_pages w)) as [p|] eqn:E; [|intros H; discriminate (f_equal snd H)]. cbv zeta.
  destruct (Z.ltb_spec INT32_MAX (32 * Z.of_nat (length (wp_nodes p)) + 32 * Z.of_nat (length (wp_subs p)))) as [Q|Q]; intros H; [exists p; auto|discriminate (f_equal snd H)].
Qed.
Lemma page_ok od k w w' u : write_page od k w = (w', Ok u) -> ~ big_page (w_pages w) k.
Proof.
  unfold write_page. destruct (mget k (w_pages w)) as [p|] eqn:E; [|intros H; discriminate (f_equal snd H)]. cbv zeta.
  destruct (Z.ltb_spec INT32_MAX (32 * Z.of_nat (length (wp_nodes p)) + 32 * Z.of_nat (length (wp_subs p)))) as [Q|Q]; intros H; [discriminate (f_equal snd H)|]. intros (q & E' & B). assert (q = p) by congruence. subst q. lia.
Qed.
Section Tree.
Variable od : orders.
Hypothesis RO : reorders od.
Lemma tree_facts fuel : forall k w w' r, write_page_tree fuel od k w = (w', r) ->
  same_pages (w_pages w) (w_pages w') /\
  (r = Throw -> exists k', reach (w_pages w) k k' /\ big_page (w_pages w) k') /\
  (r = Ok tt -> forall k', reach (w_pages w) k k' -> ~ big_page (w_pages w) k').
Proof.
  induction fuel as [|fuel IH]; intros k w w' r H; cbn [write_page_tree] in H.
  - injection H as <- <-. split; [apply same_refl|]. split; discriminate.
  - destruct (mget k (w_pages w)) as [p|] eqn:E.
    2:{ injection H as <- <-. split; [apply same_refl|]. split; [discriminate|]. intros _ k' R (q & Q & _). inversion R; subst; congruence. }
    assert (EA : forall l v v' s, each (write_page_tree fuel od) l v = (v', s) -> same_pages (w_pages v) (w_pages v') /\
      (s = Throw -> exists a k', In a l /\ reach (w_pages v) a k' /\ big_page (w_pages v) k') /\
      (s = Ok tt -> forall a k', In a l -> reach (w_pages v) a k' -> ~ big_page (w_pages v) k')).
    { induction l as [|a l IHl]; intros v v' s HE; cbn [each] in HE.
      - injection HE as <- <-. split; [apply same_refl|]. split; [discriminate|]. intros _ a k' [].
      - destruct (write_page_tree fuel od a v) as (v1, r1) eqn:E1. destruct (IH _ _ _ _ E1) as (S1 & T1 & O1). destruct r1 as [[]| |]; cbn [then_] in HE.
        + destruct (IHl _ _ _ HE) as (S2 & T2 & O2). split; [eapply same_trans; eauto|]. pose proof (same_more _ _ (same_sym _ _ S1)) as M. pose proof (same_more _ _ S1) as M'. split.
          * intros X. destruct (T2 X) as (b & k' & I & R & B). exists b, k'. split; [now right|]. split; [now apply (more_reach _ _ M)|now apply (more_big _ _ _ M)].
          * intros X b k' [<-|I] R B; [now apply (O1 eq_refl k')|]. apply (O2 X b k' I); [now apply (more_reach _ _ M')|now apply (more_big _ _ _ M')].
        + injection HE as <- <-. split; [exact S1|]. split; [|discriminate]. intros _. destruct (T1 eq_refl) as (k' & R & B). exists a, k'. split; [now left|auto].
        + injection HE as <- <-. split; [exact S1|]. split; discriminate. }
    destruct (each _ (od_subs od k (wp_subs p)) w) as (w1, r1) eqn:E1. destruct (EA _ _ _ _ E1) as (S1 & T1 & O1). destruct RO as (_ & RS). destruct r1 as [[]| |]; cbn [then_] in H.
    + pose proof (page_same od k w1) as S2. rewrite H in S2. cbn [fst] in S2. split; [eapply same_trans; eauto|]. split.
      * intros ->. exists k. split; [constructor|]. apply (more_big _ _ _ (same_more _ _ (same_sym _ _ S1))). eapply page_throw; eauto.
      * intros -> k' R B. inversion R as [|? q s ? E2 I R2]; subst.
        -- apply (page_ok od k' w1 w' tt H). now apply (more_big _ _ _ (same_more _ _ S1)).
        -- assert (q = p) by congruence. subst q. apply (O1 eq_refl s k'); [|exact R2|exact B]. apply (Permutation_in s (Permutation_sym (RS k (wp_subs p)))). exact I.
    + injection H as <- <-. split; [exact S1|]. split; [|discriminate]. intros _. destruct (T1 eq_refl) as (a & k' & I & R & B). exists k'. split; [|exact B].
      apply (reach_sub _ k p a k' E); [|exact R]. apply (Permutation_in a (RS k (wp_subs p))). exact I.
    + injection H as <- <-. split; [exact S1|]. split; discriminate.
Qed.
End Tree.

Lemma table_facts cd po b b' r : write_chunk_table cd po b = (b', r) -> b_open b' = b_open b /\ length (b_chunks b') = length (b_chunks b) /\
  (r = Ok tt \/ r = Throw) /\ (r = Throw <-> UINT32_MAX < Z.of_nat (length (b_chunks b))).
Proof.
  assert (RL : forall l s, length (relative_chunks s l) = length l) by (induction l as [|(n, o) l IH]; intros s; cbn [relative_chunks length]; [reflexivity|now rewrite IH]).
  unfold write_chunk_table. cbv zeta. cbn [b_chunks with_out]. rewrite RL. destruct (Z.ltb_spec UINT32_MAX (Z.of_nat (length (b_chunks b)))) as [Q|Q]; intros H.
  - pose proof (f_equal fst H) as H1. pose proof (f_equal snd H) as H2. cbn [fst snd] in *. subst. cbn [b_open b_chunks with_out]. rewrite RL. split; [auto|]. split; [auto|]. split; [auto|]. split; auto.
  - pose proof (f_equal fst H) as H1. pose proof (f_equal snd H) as H2. cbn [fst snd] in *. subst. unfold emit. cbn [b_open b_chunks with_out]. rewrite RL. split; [auto|]. split; [auto|]. split; [auto|]. split; [discriminate|lia].
Qed.
Lemma page_opens od k w : b_open (w_base (fst (write_page od k w))) = b_open (w_base w).
Proof. unfold write_page. destruct (mget k (w_pages w)) as [p|]; [|reflexivity]. cbv zeta. destruct (_ <? _); [reflexivity|]. destruct (key_eqb k root_key); reflexivity. Qed.
Lemma tree_opens od fuel : forall k w, b_open (w_base (fst (write_page_tree fuel od k w))) = b_open (w_base w).
Proof.
  induction fuel as [|fuel IH]; intros k w; [reflexivity|]. cbn [write_page_tree]. destruct (mget k (w_pages w)) as [p|]; [|reflexivity].
  assert (E : forall l w, b_open (w_base (fst (each (write_page_tree fuel od) l w))) = b_open (w_base w)).
  { induction l as [|a l IHl]; intros v; [reflexivity|]. cbn [each]. pose proof (IH a v) as K. destruct (write_page_tree fuel od a v) as (v1, [u| |]); cbn [then_ fst] in *; [|exact K..]. now rewrite IHl. }
  specialize (E (od_subs od k (wp_subs p)) w). destruct (each _ _ w) as (w1, [u| |]); cbn [then_ fst] in *; [|exact E..]. rewrite <- E. apply page_opens.
Qed.

(* an accepted Close has ordered bounds *)
Lemma close_bounds cd od w w' : b_open (w_base w) = true -> cfg_ok (w_cfg w) -> close cd od w = (w', Ok tt) -> ordered_bounds (c_hdr (w_cfg w)).
Proof.
  intros O G H. unfold close in H. rewrite O in H. cbn [negb] in H. destruct (copc_offset_ok _ G) as (P & B). rewrite P in H.
  destruct (write_chunk_table _ _ _) as (b1, [?| |]); [|discriminate..]. cbv zeta in H. destruct (compute_hierarchy _ _) as [PG| |]; [|discriminate..].
  match type of H with context [write_page_tree ?n od root_key ?x] => set (w3 := x) in H; pose proof (tree_keeps od n root_key w3) as K; destruct (write_page_tree n od root_key w3) as (w4, [?| |]); cbn [then_] in H; [|discriminate..] end.
  cbn [fst] in K. destruct K as (K1 & K2 & K3 & _). cbn [w3 w_cfg with_base] in K1, K3.
  destruct (copc_write_header _ _) as (w5, [?| |]) eqn:E; cbn [then_] in H; [|discriminate..]. unfold copc_write_header in E. cbn [with_base w_cfg w_base] in E.
  destruct (write_las_header _ _ _ _) as (b2, [?| |]); [|discriminate..]. destruct (copc_vlrs_spec (w_cfg w4)) as [(_ & X)|(V & _)]; [now apply K1|now rewrite K3 in X|]. rewrite V in E. discriminate.
Qed.

(* after a Close that threw, Close does not succeed *)
Lemma failed_again cd od od2 w1 w2 w3 : reorders od -> reorders od2 -> cfg_ok (w_cfg w1) -> 0 <= b_points (w_base w1) < 2 ^ 64 -> fine (b_out (w_base w1)) ->
  close cd od w1 = (w2, Throw) -> close cd od2 w2 = (w3, Ok tt) -> False.
Proof.
  intros RO RO2 G P F H1 H2. pose proof H1 as H. unfold close in H. destruct (negb (b_open (w_base w1))) eqn:O; [discriminate (f_equal snd H)|].
  apply negb_false_iff in O. destruct (copc_offset_ok _ G) as (CO & B). rewrite CO in H. set (ds := data_start (w_cfg w1)) in *.
  destruct (write_chunk_table cd ds (w_base w1)) as (b1, r1) eqn:E1. destruct (table_facts _ _ _ _ _ E1) as (T1 & T2 & T3 & T4).
  assert (AGAIN : forall od' w w', b_open (w_base w) = true -> cfg_ok (w_cfg w) -> close cd od' w = (w', Ok tt) ->
    Z.of_nat (length (b_chunks (w_base w))) <= UINT32_MAX /\ exists PG wa w4, compute_hierarchy (map fst (w_pages w)) (w_pages w) = Ok PG /\ w_pages wa = PG /\ 
      write_page_tree (S (Z.to_nat (max_page_depth PG))) od' root_key wa = (w4, Ok tt)).
  { clear. intros od' w w' O G H. unfold close in H. rewrite O in H. cbn [negb] in H. destruct (copc_offset_ok _ G) as (CO & _). rewrite CO in H.
    destruct (write_chunk_table _ _ _) as (b1, r1) eqn:E1. destruct (table_facts _ _ _ _ _ E1) as (T1 & T2 & T3 & T4). destruct r1 as [[]| |]; [|discriminate..]. split.
    { destruct (Z.le_gt_cases (Z.of_nat (length (b_chunks (w_base w)))) UINT32_MAX) as [Q|Q]; [exact Q|]. apply Z.lt_gt in Q. assert (X : UINT32_MAX < Z.of_nat (length (b_chunks (w_base w)))) by lia. apply T4 in X. discriminate. }
    cbv zeta in H. cbn [with_base w_pages] in H. destruct (compute_hierarchy (map fst (w_pages w)) (w_pages w)) as [PG| |]; [|discriminate..]. cbn [w_base w_cfg w_loaded] in H.
    match type of H with context [write_page_tree ?n od' root_key ?x] => set (wa := x) in H; destruct (write_page_tree n od' root_key wa) as (w4, [[]| |]) eqn:E3; cbn [then_] in H; [|discriminate..] end.
    exists PG, wa, w4. split; [reflexivity|]. split; [reflexivity|exact E3]. }
  destruct T3 as [-> | ->].
  2:{ apply (f_equal fst) in H. cbn [fst] in H. rewrite <- H in H2. destruct (AGAIN od2 (with_base b1 w1) w3) as (X & _); [cbn [with_base w_base]; congruence|exact G|exact H2|]. cbn [with_base w_base] in X. rewrite T2 in X. assert (UINT32_MAX < Z.of_nat (length (b_chunks (w_base w1)))) by now apply T4. lia. }
  cbv zeta in H. cbn [with_base w_pages] in H. destruct (compute_hierarchy (map fst (w_pages w1)) (w_pages w1)) as [PG| |] eqn:EC; [| |discriminate (f_equal snd H)].
  2:{ apply (f_equal fst) in H. cbn [fst] in H. match type of H with ?x = _ => set (wx := x) in H end. rewrite <- H in H2. destruct (AGAIN od2 wx w3) as (_ & PG & wa & w4 & X & _); [unfold wx; cbn [with_base w_base b_open with_out]; congruence|exact G|exact H2|]. unfold wx in X. cbn [with_base w_pages] in X. congruence. }
  cbn [w_base w_cfg w_loaded] in H.
  match type of H with context [write_page_tree ?n od root_key ?x] => set (wa := x) in H; pose proof (tree_keeps od n root_key wa) as K; pose proof (tree_opens od n root_key wa) as KO; destruct (write_page_tree n od root_key wa) as (w4, r4) eqn:E3 end.
  cbn [fst] in K, KO. destruct K as (K1 & K2 & K3 & _). cbn [wa w_cfg w_base b_open with_out] in K1, K3, KO. assert (KT : b_open (w_base w4) = true) by (rewrite KO; exact (eq_trans T1 O)). destruct (tree_facts od RO _ _ _ _ _ E3) as (S3 & TH & _). cbn [wa w_pages] in S3, TH.
  destruct r4 as [u| |]; cbn [then_] in H; [| |discriminate (f_equal snd H)].
  - (* the header *)
    assert (NT : t_tail cd od w1 <> []).
    { unfold t_tail, before_header. rewrite O, CO. fold ds. rewrite E1. cbn [negb]. fold (after_table b1 w1). cbv zeta. change (w_pages (after_table b1 w1)) with (w_pages w1). rewrite EC.
      match goal with |- context [write_page_tree ?n od root_key ?x] => change x with wa end. rewrite E3. unfold t_copc_header, t_las_header. cbv zeta.
      set (w5 := with_base _ w4). assert (G5 : cfg_ok (w_cfg w5)) by (apply K1; exact G). destruct (good_eb_size _ G5) as (E & _ & _ & E2 & _).
      destruct (to_lazperf_defined (c_hdr (w_cfg w5)) ds (b_points (w_base w5)) (b_evoff (w_base w5)) (b_evcnt (w_base w5)) (negb (eb_total (c_ebs (w_cfg w5)) =? 0)) (xs_ext (c_exts (w_cfg w5)))) as (l & TL); [intros _; apply G5|].
      rewrite E, E2. cbn [bind]. rewrite TL. discriminate. }
    assert (X2 : c_hdr (w_cfg w2) = c_hdr (w_cfg w1) /\ cfg_ok (w_cfg w2) /\ b_open (w_base w2) = true).
    { set (w5 := with_base _ w4) in H. assert (W5 : w_cfg w5 = w_cfg w4 /\ b_open (w_base w5) = b_open (w_base w4)).
      { split; [reflexivity|]. unfold w5, write_wkt. cbn [with_base w_base]. destruct (c_wkt (w_cfg w4)); reflexivity. }
      destruct W5 as (W5 & W5'). destruct (copc_write_header ds w5) as (w6, r6) eqn:E6.
      assert (W6 : w_cfg w6 = w_cfg w5 /\ b_open (w_base w6) = b_open (w_base w5)).
      { clear - E6. unfold copc_write_header in E6. destruct (write_las_header _ _ _ _) as (b, r) eqn:E7.
        assert (Q : b_open b = b_open (w_base w5)). { unfold write_las_header in E7. destruct (let! eb := _ in _); apply (f_equal fst) in E7; cbn [fst] in E7; subst b; reflexivity. }
        destruct r as [?| |]; [|apply (f_equal fst) in E6; cbn [fst] in E6; subst w6; split; [reflexivity|exact Q]..].
        destruct (copc_vlrs _); [destruct (_ <? _)| |]; apply (f_equal fst) in E6; cbn [fst] in E6; subst w6; split; try reflexivity; exact Q. }
      destruct W6 as (W6 & W6'). destruct r6 as [?| |]; cbn [then_] in H; [discriminate (f_equal snd H)| |discriminate (f_equal snd H)].
      apply (f_equal fst) in H. cbn [fst] in H. subst w6. rewrite W6, W5, W6', W5'. split; [exact K3|]. split; [apply K1; exact G|exact KT]. }
    destruct X2 as (X2 & X3 & X4). pose proof (close_bounds _ _ _ _ X4 X3 H2) as OB. rewrite X2 in OB.
    pose proof (tail_close cd od w1 G P F OB NT) as Q. rewrite H1 in Q. discriminate Q.
  - (* an oversize page *)
    apply (f_equal fst) in H. cbn [fst] in H. subst w4. destruct (TH eq_refl) as (k' & R & BG).
    destruct (AGAIN od2 w2 w3) as (_ & PG2 & wb & w4 & X1 & X2 & X3); [exact KT|apply K1; exact G|exact H2|].
    destruct (tree_facts od2 RO2 _ _ _ _ _ X3) as (_ & _ & N). rewrite X2 in N.
    assert (M : more_pages PG PG2) by (eapply more_trans; [apply same_more, S3|eapply compute_more; exact X1]).
    apply (N eq_refl k'); [now apply (more_reach _ _ M)|now apply (more_big _ _ _ M)].
Qed.
