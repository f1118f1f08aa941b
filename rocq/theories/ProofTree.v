(* ProofTree.v - the tree of pages that Close builds *)
From Coq Require Import Permutation.
From Verif Require Import Base BaseFacts ModelKey ModelEntry ModelStream ModelWriter SpecKey ProofKey ProofStream.

Lemma child_of_parent k q : valid k -> child_of k q = true <-> q = k \/ child_of (get_parent k) q = true.
Proof.
  intros V. split.
  - rewrite child_of_spec. intros (_ & i & Hi & ->). destruct i as [|i]; [left; apply ancestor_0|right].
    rewrite <- (ancestor_0 k) at 1. rewrite get_parent_ancestor by (auto; destruct V; lia). apply child_of_spec.
    split; [apply ancestor_valid; auto; lia|]. exists i. rewrite ancestor_add. split; [unfold ancestor; cbn [kd]; lia|]. f_equal. lia.
  - intros [->|H]; [now apply child_of_refl|]. pose proof (child_of_valid_l _ _ H) as VP. eapply child_of_trans; [|exact H].
    apply child_of_spec. split; [exact V|]. exists 1%nat. rewrite get_parent_valid in * by exact V.
    split; [destruct VP; cbn [kd] in *; lia|]. rewrite ancestor_S, ancestor_0. reflexivity.
Qed.
Lemma child_of_depth k p : child_of k p = true -> kd p <= kd k.
Proof. rewrite child_of_iff. tauto. Qed.
Lemma child_of_same_depth k p : child_of k p = true -> kd p = kd k -> p = k.
Proof.
  rewrite child_of_spec. intros (V & i & Hi & ->) E. unfold ancestor in E; cbn [kd] in E. assert (i = 0%nat) as -> by lia. apply ancestor_0.
Qed.
(* two ancestors of a key are comparable *)
Lemma child_of_chain k p q : child_of k p = true -> child_of k q = true -> kd q <= kd p -> child_of p q = true.
Proof.
  rewrite !child_of_spec. intros (V & i & Hi & ->) (_ & j & Hj & ->). unfold ancestor at 1 2; cbn [kd]. intros L.
  split; [now apply ancestor_valid|]. exists (j - i)%nat. rewrite ancestor_add. split; [unfold ancestor; cbn [kd]; lia|]. f_equal. lia.
Qed.

(* ---- parent_page ---- *)
(* the page among pages that most tightly encloses the key *)
Definition nearest {V} (pages : kmap V) (k p : key) : Prop :=
  In p (map fst pages) /\ child_of k p = true /\ forall q, In q (map fst pages) -> child_of k q = true -> kd q <= kd p.
Lemma nearest_unique {V} (pages : kmap V) k p q : nearest pages k p -> nearest pages k q -> p = q.
Proof.
  intros (A & B & C) (D & E & F). pose proof (C q D E). pose proof (F p A B).
  apply child_of_antisym; eapply child_of_chain; eauto; lia.
Qed.
Lemma parent_page_spec pages : forall fuel k, valid k -> (Z.to_nat (kd k) < fuel)%nat ->
  (exists p, parent_page fuel pages k = Ok p /\ nearest pages k p) \/
  (parent_page fuel pages k = Throw /\ forall q, In q (map fst pages) -> child_of k q = false).
Proof.
  induction fuel as [|fuel IH]; intros k V F; [lia|]. cbn [parent_page]. destruct (mhas k pages) eqn:M.
  - left. exists k. split; [reflexivity|]. split; [now apply mhas_in|]. split; [now apply child_of_refl|]. intros q _ C. now apply child_of_depth.
  - assert (NK : ~ In k (map fst pages)) by (rewrite <- mhas_in; congruence).
    destruct (key_valid (get_parent k)) eqn:VP.
    + apply key_valid_spec in VP. assert (D : kd (get_parent k) = kd k - 1) by now rewrite get_parent_valid.
      destruct (IH (get_parent k) VP) as [(p & E & A & B & C)|(E & C)]; [destruct VP; lia|left|right].
      * exists p. split; [exact E|]. split; [exact A|]. split; [apply child_of_parent; auto|].
        intros q Q CQ. apply (child_of_parent _ _ V) in CQ as [->|CQ]; [now destruct NK|now apply C].
      * split; [exact E|]. intros q Q. destruct (child_of k q) eqn:CQ; [|reflexivity].
        apply (child_of_parent _ _ V) in CQ as [->|CQ]; [now destruct NK|]. rewrite (C q Q) in CQ. discriminate.
    + right. split; [reflexivity|]. intros q Q. destruct (child_of k q) eqn:CQ; [|reflexivity].
      apply (child_of_parent _ _ V) in CQ as [->|CQ]; [now destruct NK|]. apply child_of_valid_l, key_valid_spec in CQ. congruence.
Qed.
Lemma parent_page_ext pages pages' : (forall q, mhas q pages' = mhas q pages) -> forall fuel k, parent_page fuel pages' k = parent_page fuel pages k.
Proof. intros H fuel. induction fuel as [|fuel IH]; intros k; cbn [parent_page]; [reflexivity|]. rewrite H. destruct (mhas k pages); [reflexivity|]. now rewrite IH. Qed.

(* the page a page is attached to *)
Definition up (pages : kmap wpage) (k : key) : outcome key := parent_page (S (S (Z.to_nat (kd k)))) pages (get_parent k).
Definition all_valid {V} (pages : kmap V) : Prop := forall q, In q (map fst pages) -> valid q.
Lemma up_spec pages k : valid k -> all_valid pages ->
  (exists p, up pages k = Ok p /\ nearest pages (get_parent k) p) \/
  (up pages k = Throw /\ forall q, In q (map fst pages) -> child_of k q = true -> q = k).
Proof.
  intros V AV. unfold up. destruct (valid_dec (get_parent k)) as [VP|VP].
  - assert (D : kd (get_parent k) = kd k - 1) by now rewrite get_parent_valid.
    destruct (parent_page_spec pages (S (S (Z.to_nat (kd k)))) (get_parent k) VP) as [T|(E & C)]; [lia|now left|right].
    split; [exact E|]. intros q Q CQ. apply (child_of_parent _ _ V) in CQ as [->|CQ]; [reflexivity|]. rewrite (C q Q) in CQ. discriminate.
  - right. cbn [parent_page]. destruct (mhas (get_parent k) pages) eqn:M; [apply mhas_in, AV in M; now destruct VP|].
    assert (get_parent (get_parent k) = invalid_key) as -> by now apply get_parent_invalid. split; [reflexivity|].
    intros q Q CQ. apply (child_of_parent _ _ V) in CQ as [->|CQ]; [reflexivity|]. now apply child_of_valid_l in CQ.
Qed.
Lemma up_ext pages pages' k : (forall q, mhas q pages' = mhas q pages) -> up pages' k = up pages k.
Proof. intros H. apply parent_page_ext, H. Qed.

(* ---- compute_hierarchy ---- *)
Definition below (pages : kmap wpage) (q k : key) : bool :=
  negb (key_eqb k root_key) && match up pages k with Ok p => key_eqb p q | _ => false end.
Lemma set_add_new k l : ~ In k l -> set_add k l = l ++ [k].
Proof.
  intros N. unfold set_add. destruct (existsb (key_eqb k) l) eqn:E; [|reflexivity]. apply existsb_exists in E as (x & I & Q). destruct (key_eqb_spec k x) as [->|]; [contradiction|discriminate].
Qed.
Lemma add_sub_get p k pages q : (forall Q, mget p pages = Some Q -> ~ In k (wp_subs Q)) -> mget q (add_sub p k pages) =
  match mget q pages with Some Q => Some (mkWP (wp_off Q) (wp_size Q) (wp_nodes Q) (wp_subs Q ++ if key_eqb p q then [k] else [])) | None => None end.
Proof.
  intros F. unfold add_sub. destruct (key_eqb_spec p q) as [<-|N].
  - destruct (mget p pages) as [P|] eqn:E; [rewrite set_add_new by (now apply F); apply mget_mset_same|now rewrite E].
  - assert (R : mget q match mget p pages with Some Q => mset p (mkWP (wp_off Q) (wp_size Q) (wp_nodes Q) (set_add k (wp_subs Q))) pages | None => pages end = mget q pages).
    { destruct (mget p pages); [now apply mget_mset_other|reflexivity]. }
    rewrite R. destruct (mget q pages) as [[a b c d]|]; [|reflexivity]. cbn. now rewrite app_nil_r.
Qed.
Lemma add_sub_nodup p k pages : NoDup (map fst pages) -> NoDup (map fst (add_sub p k pages)).
Proof. intros H. unfold add_sub. destruct (mget p pages); [now apply mset_nodup|exact H]. Qed.
Lemma mhas_keys {V W} (a : kmap V) (b : kmap W) : (forall q, mhas q a = mhas q b) <-> (forall q, In q (map fst a) <-> In q (map fst b)).
Proof.
  split; intros H q.
  - rewrite <- !mhas_in. now rewrite H.
  - specialize (H q). rewrite <- !mhas_in in H. destruct (mhas q a), (mhas q b); intuition congruence.
Qed.
Lemma add_sub_has p k pages q : mhas q (add_sub p k pages) = mhas q pages.
Proof.
  unfold mhas, add_sub. destruct (mget p pages) as [P|] eqn:E; [|reflexivity]. destruct (key_eqb_spec p q) as [<-|N]; [now rewrite mget_mset_same, E|now rewrite mget_mset_other].
Qed.

Lemma compute_spec todo : forall pages, NoDup (map fst pages) -> all_valid pages -> (forall k, In k todo -> valid k) ->
  NoDup todo -> (forall q Q k, mget q pages = Some Q -> In k todo -> ~ In k (wp_subs Q)) ->
  (exists pages', compute_hierarchy todo pages = Ok pages' /\ NoDup (map fst pages') /\
     (forall q, mget q pages' = match mget q pages with
        | Some Q => Some (mkWP (wp_off Q) (wp_size Q) (wp_nodes Q) (wp_subs Q ++ filter (below pages q) todo)) | None => None end) /\
     (forall k, In k todo -> k <> root_key -> exists p, up pages k = Ok p /\ nearest pages (get_parent k) p)) \/
  (compute_hierarchy todo pages = Throw /\ exists k, In k todo /\ k <> root_key /\ forall q, In q (map fst pages) -> child_of k q = true -> q = k).
Proof.
  induction todo as [|k todo IH]; intros pages ND AV VT NT FR.
  { left. exists pages. split; [reflexivity|]. split; [exact ND|]. split; [|intros k []].
    intros q. destruct (mget q pages) as [[a b c d]|]; [|reflexivity]. cbn. now rewrite app_nil_r. }
  cbn [compute_hierarchy]. inversion NT as [|? ? NK NT']; subst. destruct (key_eqb_spec k root_key) as [ER|NR].
  - destruct (IH pages ND AV (fun x Hx => VT x (or_intror Hx)) NT' (fun q Q x M I => FR q Q x M (or_intror I))) as [(pages' & E & A & B & C)|(E & x & X & T)]; [left|right].
    + exists pages'. split; [exact E|]. split; [exact A|]. split.
      * intros q. rewrite B. destruct (mget q pages) as [Q|]; [|reflexivity]. cbn [filter]. unfold below at 2. rewrite ER. cbn [negb andb].
        reflexivity.
      * intros x [<-|X] N; [congruence|auto].
    + split; [exact E|]. exists x. split; [now right|exact T].
  - fold (up pages k). destruct (up_spec pages k (VT k (or_introl eq_refl)) AV) as [(p & U & NE)|(U & T)]; rewrite U; cbn [bind].
    + assert (HS : forall q, mhas q (add_sub p k pages) = mhas q pages) by (intros; apply add_sub_has).
      assert (HK := proj1 (mhas_keys _ _) HS).
      assert (AV' : all_valid (add_sub p k pages)) by (intros q Q; apply AV, HK, Q).
      assert (FK : forall Q, mget p pages = Some Q -> ~ In k (wp_subs Q)) by (intros Q M; apply (FR p Q k M); now left).
      assert (FR' : forall q Q x, mget q (add_sub p k pages) = Some Q -> In x todo -> ~ In x (wp_subs Q)).
      { intros q Q x M I. rewrite add_sub_get in M by exact FK. destruct (mget q pages) as [Q0|] eqn:M0; [|discriminate]. injection M as <-. cbn [wp_subs]. rewrite in_app_iff. intros [J|J].
        - exact (FR q Q0 x M0 (or_intror I) J).
        - destruct (key_eqb p q); [|exact J]. destruct J as [<-|[]]. contradiction. }
      destruct (IH (add_sub p k pages) (add_sub_nodup _ _ _ ND) AV' (fun x Hx => VT x (or_intror Hx)) NT' FR') as [(pages' & E & A & B & C)|(E & x & X & N & T)]; [left|right].
      * exists pages'. split; [exact E|]. split; [exact A|]. split.
        -- intros q. rewrite B, add_sub_get by exact FK. destruct (mget q pages) as [Q|]; [|reflexivity]. cbn [wp_off wp_size wp_nodes wp_subs].
           do 2 f_equal. rewrite <- app_assoc. f_equal. cbn [filter]. unfold below at 2. destruct (key_eqb_spec k root_key); [congruence|].
           rewrite U. cbn [negb andb]. assert (F : filter (below (add_sub p k pages) q) todo = filter (below pages q) todo).
           { apply filter_ext. intros a. unfold below. now rewrite (up_ext _ _ _ HS). }
           rewrite F. now destruct (key_eqb p q).
        -- intros x [<-|X] N; [eauto|]. destruct (C x X N) as (y & Y & (Y1 & Y2 & Y3)). rewrite (up_ext _ _ _ HS) in Y. exists y. split; [exact Y|].
           split; [now apply HK|]. split; [exact Y2|]. intros z Hz. apply Y3, HK, Hz.
      * split; [exact E|]. exists x. split; [now right|]. split; [exact N|]. intros q Q. apply T, HK, Q.
    + right. split; [reflexivity|]. exists k. split; [now left|]. split; [exact NR|exact T].
Qed.

(* ---- the tree relation ---- *)
Definition subs_of (PG : kmap wpage) (k : key) : list key := match mget k PG with Some P => wp_subs P | None => [] end.
Record tree (PG : kmap wpage) : Prop := {
  tr_nd : NoDup (map fst PG);
  tr_valid : all_valid PG;
  tr_root : In root_key (map fst PG);
  tr_subs_nd : forall k, NoDup (subs_of PG k);
  tr_sub : forall k s, In s (subs_of PG k) <-> In s (map fst PG) /\ s <> root_key /\ nearest PG (get_parent s) k;
  tr_up : forall s, In s (map fst PG) -> s <> root_key -> exists k, In s (subs_of PG k) }.

Lemma compute_tree pages : NoDup (map fst pages) -> all_valid pages -> In root_key (map fst pages) -> (forall p P, mget p pages = Some P -> wp_subs P = []) ->
  (exists PG, compute_hierarchy (map fst pages) pages = Ok PG /\ tree PG /\ (forall q, In q (map fst PG) <-> In q (map fst pages)) /\
     forall q, match mget q PG, mget q pages with
       | Some A, Some B => wp_off A = wp_off B /\ wp_size A = wp_size B /\ wp_nodes A = wp_nodes B | None, None => True | _, _ => False end) \/
  (compute_hierarchy (map fst pages) pages = Throw /\ exists k, In k (map fst pages) /\ k <> root_key /\ forall q, In q (map fst pages) -> child_of k q = true -> q = k).
Proof.
  intros ND AV RT NS. assert (FR : forall q Q k, mget q pages = Some Q -> In k (map fst pages) -> ~ In k (wp_subs Q)) by (intros q Q k M _; rewrite (NS q Q M); auto).
  destruct (compute_spec (map fst pages) pages ND AV AV ND FR) as [(PG & E & A & B & C)|T]; [left|now right].
  exists PG. split; [exact E|].
  assert (HS : forall q, mhas q PG = mhas q pages) by (intros q; unfold mhas; rewrite B; now destruct (mget q pages)).
  assert (HK := proj1 (mhas_keys _ _) HS).
  assert (SUB : forall k, subs_of PG k = if mhas k pages then filter (below pages k) (map fst pages) else []).
  { intros k. unfold subs_of, mhas. rewrite B. destruct (mget k pages) as [P|] eqn:EP; [|reflexivity]. cbn [wp_subs]. now rewrite (NS _ _ EP). }
  assert (NP : forall k p, nearest PG k p <-> nearest pages k p).
  { intros k p. unfold nearest. rewrite HK. split; intros (X & Y & Z); (split; [exact X|]); (split; [exact Y|]); intros q Q; apply Z, HK, Q. }
  split; [|split; [exact HK|]].
  - constructor.
    + exact A.
    + intros q Q. apply AV, HK, Q.
    + now apply HK.
    + intros k. rewrite SUB. destruct (mhas k pages); [now apply NoDup_filter|constructor].
    + intros k s. rewrite SUB, NP, HK. split.
      * intros H. destruct (mhas k pages) eqn:M; [|destruct H]. apply filter_In in H as (H1 & H2). split; [exact H1|].
        unfold below in H2. apply andb_true_iff in H2 as (H2 & H3). destruct (key_eqb_spec s root_key) as [|N]; [discriminate|]. split; [exact N|].
        destruct (C s H1 N) as (p & U & NE). rewrite U in H3. apply key_eqb_eq in H3. now subst p.
      * intros (H1 & N & NE). assert (M : mhas k pages = true) by apply mhas_in, NE. rewrite M. apply filter_In. split; [exact H1|].
        unfold below. destruct (key_eqb_spec s root_key); [congruence|]. cbn [negb andb]. destruct (C s H1 N) as (p & U & NE'). rewrite U.
        apply key_eqb_eq. exact (nearest_unique _ _ _ _ NE' NE).
    + intros s S N. apply HK in S. destruct (C s S N) as (p & U & NE). exists p. rewrite SUB.
      assert (M : mhas p pages = true) by apply mhas_in, NE. rewrite M. apply filter_In. split; [exact S|].
      unfold below. destruct (key_eqb_spec s root_key); [congruence|]. cbn [negb andb]. rewrite U. apply key_eqb_refl.
  - intros q. rewrite B. destruct (mget q pages) as [P|]; [|exact I]. now repeat split.
Qed.

Lemma sub_depth PG k s : tree PG -> In s (subs_of PG k) -> kd k < kd s /\ In k (map fst PG) /\ In s (map fst PG) /\ s <> root_key /\ child_of s k = true.
Proof.
  intros T H. apply (tr_sub _ T) in H as (A & B & (C & D & E)). pose proof (tr_valid _ T _ A) as V.
  pose proof (child_of_depth _ _ D) as DD. rewrite get_parent_valid in DD by exact V. cbn [kd] in DD.
  repeat (split; [assumption || lia|]). apply child_of_parent; auto.
Qed.
Lemma sub_unique PG k k' s : tree PG -> In s (subs_of PG k) -> In s (subs_of PG k') -> k = k'.
Proof. intros T H H'. apply (tr_sub _ T) in H as (_ & _ & H). apply (tr_sub _ T) in H' as (_ & _ & H'). exact (nearest_unique _ _ _ _ H H'). Qed.

Inductive reach (PG : kmap wpage) (k : key) : key -> Prop :=
| reach_refl : reach PG k k
| reach_step s x : reach PG k s -> In x (subs_of PG s) -> reach PG k x.
Lemma reach_head PG k s x : In s (subs_of PG k) -> reach PG s x -> reach PG k x.
Proof. intros H R. induction R as [|y x R IH Hx]; [econstructor; [constructor|exact H]|econstructor; eauto]. Qed.
Lemma reach_inv PG k x : reach PG k x -> x = k \/ exists s, In s (subs_of PG k) /\ reach PG s x.
Proof.
  intros R. induction R as [|y x R IH Hx]; [now left|right]. destruct IH as [->|(s & S & T)].
  - exists x. split; [exact Hx|constructor].
  - exists s. split; [exact S|]. econstructor; eauto.
Qed.
Lemma reach_depth PG k x : tree PG -> reach PG k x -> kd k <= kd x /\ (kd k = kd x -> x = k).
Proof.
  intros T R. induction R as [|y x R IH Hx]; [split; [lia|reflexivity]|]. pose proof (sub_depth _ _ _ T Hx). split; [|]; lia.
Qed.
Lemma reach_comparable PG a b x : tree PG -> reach PG a x -> reach PG b x -> reach PG a b \/ reach PG b a.
Proof.
  intros T R. revert b. induction R as [|y x R IH Hx]; intros b Rb; [now right|].
  destruct Rb as [|z x Rb Hz]; [left; econstructor; eauto|]. rewrite (sub_unique _ _ _ _ T Hz Hx) in Rb. now apply IH.
Qed.
(* subtrees of different sub-pages are disjoint *)
Lemma siblings_disjoint PG k a b x : tree PG -> In a (subs_of PG k) -> In b (subs_of PG k) -> reach PG a x -> reach PG b x -> a = b.
Proof.
  intros T A B Ra Rb.
  assert (X : forall a b, In a (subs_of PG k) -> In b (subs_of PG k) -> reach PG a b -> a = b).
  { intros a' b' A' B' R. destruct R as [|y b' R Hb]; [reflexivity|]. rewrite (sub_unique _ _ _ _ T Hb B') in R.
    apply (reach_depth _ _ _ T) in R. pose proof (sub_depth _ _ _ T A'). lia. }
  destruct (reach_comparable _ _ _ _ T Ra Rb) as [R|R]; [auto|symmetry; auto].
Qed.
Lemma reach_page PG k x : tree PG -> In k (map fst PG) -> reach PG k x -> In x (map fst PG).
Proof. intros T K R. destruct R as [|y x R Hx]; [exact K|]. now apply (sub_depth _ _ _ T) in Hx. Qed.
Lemma reach_all PG x : tree PG -> In x (map fst PG) -> reach PG root_key x.
Proof.
  intros T. remember (Z.to_nat (kd x)) as n eqn:En. revert x En. induction n as [n IH] using (well_founded_induction lt_wf). intros x -> X.
  destruct (key_eqb_spec x root_key) as [->|N]; [constructor|]. destruct (tr_up _ T x X N) as (k & K).
  pose proof (sub_depth _ _ _ T K) as (D & KP & _). econstructor; [|exact K]. eapply IH; [|reflexivity|exact KP].
  pose proof (tr_valid _ T _ KP) as (V & _). lia.
Qed.

Lemma nodup_app {A} (a b : list A) : NoDup a -> NoDup b -> (forall x, In x a -> ~ In x b) -> NoDup (a ++ b).
Proof.
  intros NA NB D. induction NA as [|x a X NA IH]; [exact NB|]. cbn [app]. constructor.
  - rewrite in_app_iff. intros [H|H]; [now apply X|]. exact (D x (or_introl eq_refl) H).
  - apply IH. intros y Hy. apply D. now right.
Qed.
(* ---- post-order ---- *)
Fixpoint post (od : orders) (PG : kmap wpage) (f : nat) (k : key) : list key :=
  match f with O => [] | S f => flat_map (post od PG f) (od_subs od k (subs_of PG k)) ++ [k] end.
Section Order.
Variables (od : orders) (PG : kmap wpage) (D : Z).
Hypothesis (RO : forall k l, Permutation (od_subs od k l) l) (T : tree PG) (DM : forall k, In k (map fst PG) -> kd k <= D).
Lemma post_in : forall f k, In k (map fst PG) -> D - kd k < Z.of_nat f -> forall x, In x (post od PG f k) <-> reach PG k x.
Proof.
  induction f as [|f IH]; intros k K F x.
  - specialize (DM k K). lia.
  - cbn [post]. rewrite in_app_iff, in_flat_map. split.
    + intros [(s & S & X)|[<-|[]]]; [|constructor]. apply (Permutation_in _ (RO _ _)) in S.
      pose proof (sub_depth _ _ _ T S) as (DD & _ & SP & _). apply IH in X; [|exact SP|lia]. eapply reach_head; eauto.
    + intros R. apply reach_inv in R as [->|(s & S & R)]; [right; now left|left]. exists s.
      pose proof (sub_depth _ _ _ T S) as (DD & _ & SP & _).
      split; [apply (Permutation_in _ (Permutation_sym (RO _ _))), S|]. apply IH; [exact SP|lia|exact R].
Qed.
Lemma post_nodup : forall f k, In k (map fst PG) -> D - kd k < Z.of_nat f -> NoDup (post od PG f k).
Proof.
  induction f as [|f IH]; intros k K F; [constructor|]. cbn [post].
  assert (N : NoDup (od_subs od k (subs_of PG k))) by (apply (Permutation_NoDup (Permutation_sym (RO _ _))), T).
  assert (I : forall s, In s (od_subs od k (subs_of PG k)) -> In s (subs_of PG k)) by (intros s; apply Permutation_in, RO).
  assert (X : forall l, NoDup l -> (forall s, In s l -> In s (subs_of PG k)) -> NoDup (flat_map (post od PG f) l) /\
                 forall x, In x (flat_map (post od PG f) l) <-> exists s, In s l /\ reach PG s x).
  { induction l as [|s l IHl]; intros NL IL.
    - split; [constructor|]. intros x. cbn. split; [intros []|intros (s & [] & _)].
    - inversion NL as [|? ? N1 N2]; subst. destruct (IHl N2 (fun y Hy => IL y (or_intror Hy))) as (A & B).
      pose proof (sub_depth _ _ _ T (IL s (or_introl eq_refl))) as (DD & _ & SP & _). cbn [flat_map]. split.
      + clear IHl. assert (NS : NoDup (post od PG f s)) by (apply IH; [exact SP|lia]).
        assert (DIS : forall x, In x (post od PG f s) -> ~ In x (flat_map (post od PG f) l)).
        { intros x H1 H2. apply post_in in H1; [|exact SP|lia]. apply B in H2 as (s' & S' & R').
          assert (s = s') by (eapply siblings_disjoint; [exact T|apply IL; now left|apply IL; right; exact S'|exact H1|exact R']). now subst s'. }
        now apply nodup_app.
      + intros x. rewrite in_app_iff, B. split.
        * intros [H|(s' & S' & R')]; [|exists s'; split; [now right|exact R']]. exists s. split; [now left|]. apply (post_in f); [exact SP|lia|exact H].
        * intros (s' & [<-|S'] & R'); [left; apply post_in; [exact SP|lia|exact R']|right; eauto]. }
  destruct (X _ N I) as (A & B). apply nodup_app; [exact A|repeat constructor; intros []|].
  intros x Hx [<-|[]]. apply B in Hx as (s & S & R). apply (reach_depth _ _ _ T) in R. pose proof (sub_depth _ _ _ T (I s S)). lia.
Qed.
Lemma post_all : Permutation (post od PG (S (Z.to_nat D)) root_key) (map fst PG).
Proof.
  assert (F : D - kd root_key < Z.of_nat (S (Z.to_nat D))) by (cbn [kd root_key]; lia).
  apply NoDup_Permutation.
  - apply post_nodup; [apply T|exact F].
  - apply T.
  - intros x. rewrite post_in by (apply T || exact F). split; [apply reach_page; [exact T|apply T]|now apply reach_all].
Qed.
End Order.
Lemma max_page_depth_ge {k} (pages : kmap wpage) : In k (map fst pages) -> kd k <= max_page_depth pages.
Proof.
  induction pages as [|(k', P) r IH]; [intros []|]. unfold max_page_depth in *. cbn [map fst In fold_right]. intros [->|H]; [lia|]. specialize (IH H). lia.
Qed.
