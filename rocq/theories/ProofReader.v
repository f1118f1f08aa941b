(* ProofReader.v - loading pages: what the Reader's hierarchy holds *)
From Coq Require Import Permutation.
From Verif Require Import Base BaseFacts ModelFloat ModelKey ModelGeom ModelEntry ModelPoint ModelPoints ModelHeader ModelVlr ModelExtents ModelConfig
  ModelStream ModelWriter ModelReader SpecKey SpecPoint SpecWriter SpecHier SpecReader ProofKey ProofPoint ProofStream ProofTree ProofPages ProofHier.

(* ---- lists ---- *)
Lemma upd_nth_length {A} (f : A -> A) : forall l i, length (upd_nth i f l) = length l.
Proof.
  intros l i. unfold upd_nth. rewrite app_length, firstn_length. pose proof (skipn_length i l) as S. destruct (skipn i l); cbn [length] in *; lia.
Qed.
Lemma upd_nth_cons {A} (f : A -> A) a l i : upd_nth (S i) f (a :: l) = a :: upd_nth i f l.
Proof. reflexivity. Qed.
Lemma upd_nth_get {A} (f : A -> A) : forall l i j, nth_error (upd_nth i f l) j = if (j =? i)%nat then option_map f (nth_error l j) else nth_error l j.
Proof.
  induction l as [|a l IH]; intros i j.
  - unfold upd_nth. rewrite firstn_nil, skipn_nil. cbn [app]. destruct (j =? i)%nat; destruct j; reflexivity.
  - destruct i as [|i]; [destruct j; reflexivity|]. rewrite upd_nth_cons. destruct j as [|j]; [reflexivity|]. cbn [nth_error Nat.eqb]. apply IH.
Qed.
Lemma nth_error_ext {A} : forall (l l' : list A), (forall i, nth_error l i = nth_error l' i) -> l = l'.
Proof.
  induction l as [|a l IH]; intros [|b l'] H; auto; [specialize (H 0%nat); discriminate|specialize (H 0%nat); discriminate|].
  pose proof (H 0%nat) as H0. injection H0 as ->. f_equal. apply IH. intros i. exact (H (S i)).
Qed.
Lemma upd_nth_id {A} (l : list A) i a : nth_error l i = Some a -> upd_nth i (fun _ => a) l = l.
Proof. intros H. apply nth_error_ext. intros j. rewrite upd_nth_get. destruct (Nat.eqb_spec j i) as [->|]; [rewrite H|]; reflexivity. Qed.
Lemma upd_nth_twice {A} (f g : A -> A) l i : upd_nth i f (upd_nth i g l) = upd_nth i (fun a => f (g a)) l.
Proof. apply nth_error_ext. intros j. rewrite !upd_nth_get. destruct (Nat.eqb_spec j i) as [->|]; [|reflexivity]. now destruct (nth_error l i). Qed.
Lemma upd_nth_app {A} (f : A -> A) l x i : (i < length l)%nat -> upd_nth i f (l ++ x) = upd_nth i f l ++ x.
Proof.
  intros H. apply nth_error_ext. intros j. rewrite upd_nth_get. destruct (Nat.eqb_spec j i) as [->|N].
  - rewrite !nth_error_app1 by (rewrite ?upd_nth_length; lia). now rewrite upd_nth_get, Nat.eqb_refl.
  - destruct (Nat.lt_ge_cases j (length l)).
    + rewrite !nth_error_app1 by (rewrite ?upd_nth_length; lia). rewrite upd_nth_get. now destruct (Nat.eqb_spec j i).
    + rewrite !nth_error_app2 by (rewrite ?upd_nth_length; lia). now rewrite upd_nth_length.
Qed.
Lemma upd_nth_const {A} (f : A -> A) l i a : nth_error l i = Some a -> upd_nth i f l = upd_nth i (fun _ => f a) l.
Proof. intros H. apply nth_error_ext. intros j. rewrite !upd_nth_get. destruct (Nat.eqb_spec j i) as [->|]; [rewrite H|]; reflexivity. Qed.
Lemma mdel_none {V} k (m : kmap V) : mget k m = None -> mdel k m = m.
Proof.
  induction m as [|(k', v) m IH]; cbn [mget mdel filter fst]; auto. fold (mdel k m). destruct (key_eqb k' k); cbn [negb]; [discriminate|]. intros H. now rewrite IH.
Qed.

(* ---- reading the entries of a page ---- *)
Lemma read_entries_ok : forall es rest, Forall (fun e => wf_entry e = true) es ->
  read_entries (length es) (flat_map entry_pack es ++ rest) = (false, if forallb entry_valid es then Ok es else Throw).
Proof.
  induction es as [|e es IH]; intros rest W; [reflexivity|]. inversion W as [|? ? W1 W2]; subst. cbn [length read_entries flat_map forallb].
  rewrite <- app_assoc, entry_roundtrip by exact W1. destruct (entry_valid e); cbn [negb andb]; [|reflexivity].
  rewrite IH by exact W2. now destruct (forallb entry_valid es).
Qed.
Lemma valid_is_page e : entry_valid e = true -> entry_is_page e = is_sub e.
Proof. intros V. unfold entry_is_page. now rewrite V. Qed.

(* ---- the loop over the entries, in closed form ---- *)
Definition subs_of_ents (l : list entry) : list entry := filter is_sub l.
Definition nodes_of_ents (l : list entry) : list entry := filter (fun e => negb (is_sub e)) l.
Definition page_of_entry (e : entry) : rpage := new_rpage (e_key e) (e_offset e) (e_size e).
Definition kn (pk : key) (e : entry) : key * node := (e_key e, mkNode e pk).

Lemma add_entries_closed i pk : forall l r p, nth_error (r_pages r) i = Some p -> Forall (fun e => entry_valid e = true) l ->
  NoDup (map e_key (subs_of_ents l)) -> NoDup (map e_key (nodes_of_ents l)) ->
  (forall e, In e (subs_of_ents l) -> mget (e_key e) (r_seen r) = None) ->
  (forall e, In e (nodes_of_ents l) -> mget (e_key e) (r_nodes r) = None /\ mget (e_key e) (rp_nodes p) = None) ->
  fold_left (add_entry i pk) l r = mkR (r_data r) (r_isfile r) (r_fail r) (r_cfg r)
    (upd_nth i (fun _ => mkRP (rp_key p) (rp_off p) (rp_size p) (rp_loaded p) (rp_subs p ++ seq (length (r_pages r)) (length (subs_of_ents l)))
                           (rev (map (kn pk) (nodes_of_ents l)) ++ rp_nodes p)) (r_pages r) ++ map page_of_entry (subs_of_ents l))
    (rev (combine (map e_key (subs_of_ents l)) (seq (length (r_pages r)) (length (subs_of_ents l)))) ++ r_seen r)
    (rev (map (kn pk) (nodes_of_ents l)) ++ r_nodes r).
Proof.
  induction l as [|e l IH]; intros r p P V S N FS FN.
  - cbn. rewrite !app_nil_r. rewrite upd_nth_id; [now destruct r|]. rewrite P. now destruct p.
  - inversion V as [|? ? V1 V2]; subst. cbn [fold_left]. unfold subs_of_ents, nodes_of_ents in *. cbn [filter] in *.
    pose proof (proj1 (nth_error_Some (r_pages r) i) ltac:(now rewrite P)) as LI.
    unfold add_entry at 2. rewrite (valid_is_page e V1). destruct (is_sub e) eqn:SE; cbn [negb] in *.
    + cbn [map] in S. inversion S as [|? ? S1 S2]; subst.
      set (r1 := mkR _ _ _ _ _ _ _).
      rewrite (IH r1 (add_subpage (length (r_pages r)) p)); auto.
      * subst r1. cbn [r_data r_isfile r_fail r_cfg r_pages r_seen r_nodes]. rewrite upd_nth_length, app_length. cbn [length map combine rev seq].
        rewrite Nat.add_1_r. unfold mset. rewrite mdel_none by (apply FS; now left). unfold add_subpage at 2 3 4 5 6 7. cbn [rp_key rp_off rp_size rp_loaded rp_subs rp_nodes].
        f_equal.
        -- rewrite upd_nth_twice. rewrite upd_nth_app by exact LI. rewrite <- !app_assoc. cbn [app]. reflexivity.
        -- rewrite <- app_assoc. reflexivity.
      * subst r1. cbn [r_pages]. rewrite upd_nth_get, Nat.eqb_refl, nth_error_app1, P by exact LI. reflexivity.
      * intros x X. subst r1. cbn [r_seen]. rewrite mget_mset_other; [apply FS; now right|]. intros E. apply S1. rewrite E. now apply in_map.
    + cbn [map] in N. inversion N as [|? ? N1 N2]; subst. set (r1 := mkR _ _ _ _ _ _ _).
      destruct (FN e (or_introl eq_refl)) as (F1 & F2).
      rewrite (IH r1 (add_page_node (mkNode e pk) p)); auto.
      * subst r1. cbn [r_data r_isfile r_fail r_cfg r_pages r_seen r_nodes]. rewrite upd_nth_length.
        unfold add_page_node at 2 3 4 5 6 7. cbn [rp_key rp_off rp_size rp_loaded rp_subs rp_nodes map rev]. unfold mset, n_key. cbn [n_entry].
        rewrite !mdel_none by auto. f_equal.
        -- rewrite upd_nth_twice. rewrite <- !app_assoc. cbn [app]. reflexivity.
        -- rewrite <- app_assoc. reflexivity.
      * subst r1. cbn [r_pages]. rewrite upd_nth_get, Nat.eqb_refl, P. reflexivity.
      * intros x X. destruct (FN x (or_intror X)) as (G1 & G2).
        assert (NE : e_key e <> e_key x) by (intros E; apply N1; rewrite E; now apply in_map).
        subst r1. unfold add_page_node. cbn [r_nodes rp_nodes]. unfold n_key. cbn [n_entry]. rewrite !mget_mset_other; auto.
Qed.

Section Tree.
Variable f : bytes.
Variables off size : Z.
Variable hs : list page_info.
Hypothesis T : page_tree f off size hs.
Hypothesis FL : Z.of_nat (length f) < 2 ^ 63.

Lemma page_unique h h' : In h hs -> In h' hs -> pi_key h = pi_key h' -> h = h'.
Proof. intros A B E. exact (nodup_map_inv pi_key hs h h' (pt_keys _ _ _ _ T) A B E). Qed.
Lemma subs_unique h h' e e' : In h hs -> In h' hs -> intact h = true -> intact h' = true -> In e (pi_ents h) -> In e' (pi_ents h') ->
  is_sub e = true -> is_sub e' = true -> e_key e = e_key e' -> h = h' /\ e = e'.
Proof.
  intros A B C D E F G I J.
  assert (e = e').
  { apply (nodup_map_inv e_key (sub_entries (filter intact hs))); auto; [exact (pt_subs _ _ _ _ T)| |]; unfold sub_entries, all_entries;
      apply filter_In; (split; [apply in_flat_map|assumption]); [exists h|exists h']; (split; [apply filter_In; split; assumption|assumption]). }
  subst e'. split; [|reflexivity].
  destruct (pt_sub _ _ _ _ T h e A C E G) as (NE & j & J1 & J2 & _ & _ & J3).
  destruct (pt_sub _ _ _ _ T h' e B D F G) as (NE' & j' & J1' & J2' & _ & _ & J3').
  pose proof (pt_inside _ _ _ _ T h e A C E) as I1. pose proof (pt_inside _ _ _ _ T h' e B D F) as I2.
  destruct (J3 h' B I2) as [X|X]; [congruence|]. destruct (J3' h A I1) as [Y|Y]; [congruence|].
  apply page_unique; auto. pose proof (child_of_chain _ _ _ I1 I2 X) as C1. apply eq_sym, child_of_same_depth; auto. lia.
Qed.
Lemma nodup_flat_in {A B} (g : A -> list B) l a : NoDup (flat_map g l) -> In a l -> NoDup (g a).
Proof.
  induction l as [|x l IH]; cbn [flat_map In]; [tauto|]. intros N [->|I].
  - clear IH. induction (g a) as [|b bs IHb]; constructor; cbn [app] in N; inversion N as [|? ? N1 N2]; subst.
    + intros H. apply N1. apply in_or_app. now left.
    + now apply IHb.
  - apply IH; auto. revert N. induction (g x) as [|b bs IHb]; cbn [app]; auto. intros N. inversion N; auto.
Qed.
Lemma page_subs_nodup h : In h hs -> intact h = true -> NoDup (map e_key (subs_of_ents (pi_ents h))).
Proof.
  intros A B. pose proof (pt_subs _ _ _ _ T) as N. unfold sub_entries, all_entries in N. rewrite filter_flat_map, map_flat_map in N.
  apply (nodup_flat_in (fun a => map e_key (filter is_sub (pi_ents a))) (filter intact hs) h N). apply filter_In. auto.
Qed.
Lemma page_nodes_nodup h : In h hs -> intact h = true -> NoDup (map e_key (nodes_of_ents (pi_ents h))).
Proof.
  intros A B. pose proof (pt_nodes _ _ _ _ T) as N. unfold node_entries, all_entries in N. rewrite filter_flat_map, map_flat_map in N.
  apply (nodup_flat_in (fun a => map e_key (filter (fun e => negb (is_sub e)) (pi_ents a))) (filter intact hs) h N). apply filter_In. auto.
Qed.
Lemma nodes_same_page h h' e e' : In h hs -> In h' hs -> intact h = true -> intact h' = true -> In e (pi_ents h) -> In e' (pi_ents h') ->
  is_sub e = false -> is_sub e' = false -> e_key e = e_key e' -> h = h' /\ e = e'.
Proof.
  intros A B C D E F G I J. pose proof (pt_nodes _ _ _ _ T) as N. unfold node_entries, all_entries in N. rewrite filter_flat_map, map_flat_map in N.
  assert (H : forall l, NoDup (flat_map (fun a => map e_key (filter (fun e => negb (is_sub e)) (pi_ents a))) l) -> In h l -> In h' l -> h = h').
  { induction l as [|x l IH]; cbn [flat_map In]; [tauto|]. intros M H1 H2.
    assert (Hm : forall a, In a l -> forall y, In y (map e_key (filter (fun e => negb (is_sub e)) (pi_ents x))) -> In y (map e_key (filter (fun e => negb (is_sub e)) (pi_ents a))) -> False).
    { intros a Ia y Y1 Y2. assert (Y3 : In y (flat_map (fun a => map e_key (filter (fun e => negb (is_sub e)) (pi_ents a))) l)) by (apply in_flat_map; eauto).
      revert M Y1 Y3. clear. generalize (flat_map (fun a => map e_key (filter (fun e => negb (is_sub e)) (pi_ents a))) l).
      generalize (map e_key (filter (fun e => negb (is_sub e)) (pi_ents x))). intros u v M U V. induction u as [|z u IH]; [destruct U|].
      cbn [app] in M. inversion M as [|? ? M1 M2]; subst. destruct U as [->|U]; [apply M1, in_or_app; now right|now apply IH]. }
    assert (K1 : In (e_key e) (map e_key (filter (fun e => negb (is_sub e)) (pi_ents h)))) by (apply in_map, filter_In; rewrite G; auto).
    assert (K2 : In (e_key e) (map e_key (filter (fun e => negb (is_sub e)) (pi_ents h')))) by (rewrite J; apply in_map, filter_In; rewrite I; auto).
    destruct H1 as [->|H1], H2 as [E2|H2]; auto.
    - exfalso. exact (Hm h' H2 _ K1 K2).
    - subst x. exfalso. exact (Hm h H1 _ K2 K1).
    - apply IH; auto. revert M. clear. generalize (flat_map (fun a => map e_key (filter (fun e => negb (is_sub e)) (pi_ents a))) l).
      generalize (map e_key (filter (fun e => negb (is_sub e)) (pi_ents x))). intros u v M. induction u as [|z u IH]; [exact M|]. cbn [app] in M. inversion M; auto. }
  assert (h = h') by (apply (H (filter intact hs)); auto; apply filter_In; auto). subst h'. split; auto.
  apply (nodup_map_inv e_key (nodes_of_ents (pi_ents h))); auto; [now apply page_nodes_nodup| |]; apply filter_In; rewrite ?G, ?I; auto.
Qed.
Lemma sub_deeper h e : In h hs -> intact h = true -> In e (pi_ents h) -> is_sub e = true -> kd (pi_key h) < kd (e_key e).
Proof.
  intros A B C D. pose proof (pt_inside _ _ _ _ T h e A B C) as I. destruct (pt_sub _ _ _ _ T h e A B C D) as (NE & _).
  pose proof (child_of_depth _ _ I). assert (kd (pi_key h) <> kd (e_key e)); [|lia]. intros E. apply NE. symmetry. now apply child_of_same_depth.
Qed.
(* the page a page is referred to from *)
Lemma parent_of h : In h hs -> pi_key h <> root_key -> exists i e, In i hs /\ intact i = true /\ In e (pi_ents i) /\ is_sub e = true /\ e_key e = pi_key h /\
  kd (pi_key i) < kd (pi_key h) /\ child_of (pi_key h) (pi_key i) = true /\ (forall q, In q hs -> child_of (pi_key h) (pi_key q) = true -> q = h \/ child_of (pi_key i) (pi_key q) = true).
Proof.
  intros A N. destruct (pt_up _ _ _ _ T h A N) as (i & e & I & J & K & L & M). exists i, e.
  pose proof (sub_deeper i e I J K L) as D. pose proof (pt_inside _ _ _ _ T i e I J K) as C. rewrite M in *.
  repeat split; auto. intros q Q CQ. destruct (pt_sub _ _ _ _ T i e I J K L) as (_ & j & _ & _ & _ & _ & NC). rewrite M in NC.
  destruct (NC q Q CQ) as [E|E]; [left; now apply page_unique|right]. exact (child_of_chain _ _ _ C CQ E).
Qed.
Lemma page_valid_key h : In h hs -> valid (pi_key h).
Proof.
  intros A. destruct (key_eqb_spec (pi_key h) root_key) as [->|N]; [unfold valid, root_key; cbn; lia|].
  destruct (parent_of h A N) as (i & e & _ & _ & _ & _ & _ & _ & C & _). exact (child_of_valid_l _ _ C).
Qed.
Lemma page_in_root h : In h hs -> child_of (pi_key h) root_key = true.
Proof.
  remember (Z.to_nat (kd (pi_key h))) as n eqn:En. revert h En. induction n as [n IH] using lt_wf_ind. intros h En A.
  destruct (key_eqb_spec (pi_key h) root_key) as [->|N]; [apply child_of_refl; unfold valid, root_key; cbn; lia|].
  destruct (parent_of h A N) as (i & e & I & _ & _ & _ & _ & D & C & _). pose proof (page_valid_key i I) as V. destruct V as (V & _).
  eapply child_of_trans; [exact C|]. eapply (IH (Z.to_nat (kd (pi_key i)))); auto. lia.
Qed.
Lemma child_of_root_only h : In h hs -> child_of root_key (pi_key h) = true -> pi_key h = root_key.
Proof. intros A C. pose proof (page_in_root h A). now apply child_of_antisym. Qed.

(* ---- what the reader's hierarchy holds ---- *)
Definition id_key (r : reader) (i : nat) : option key := option_map rp_key (nth_error (r_pages r) i).
Definition contents (r : reader) (p : rpage) (h : page_info) : Prop :=
  map (id_key r) (rp_subs p) = map (fun e => Some (e_key e)) (subs_of_ents (pi_ents h)) /\
  rp_nodes p = rev (map (kn (pi_key h)) (nodes_of_ents (pi_ents h))).
Record rinv (r : reader) : Prop := {
  ri_data : r_data r = f;
  ri_page : forall i p, nth_error (r_pages r) i = Some p -> mget (rp_key p) (r_seen r) = Some i /\
    exists h, In h hs /\ pi_key h = rp_key p /\ pi_off h = rp_off p /\ pi_size h = rp_size p /\
      if rp_loaded p then intact h = true /\ contents r p h else rp_subs p = [] /\ rp_nodes p = [];
  ri_seen : forall k i, mget k (r_seen r) = Some i -> exists p, nth_error (r_pages r) i = Some p /\ rp_key p = k;
  ri_nodup : NoDup (map fst (r_seen r));
  ri_root : exists i, mget root_key (r_seen r) = Some i;
  ri_nodes : forall k n, mget k (r_nodes r) = Some n <->
    exists i p h e, nth_error (r_pages r) i = Some p /\ rp_loaded p = true /\ In h hs /\ pi_key h = rp_key p /\ In e (pi_ents h) /\ is_sub e = false /\ e_key e = k /\ n = mkNode e (pi_key h);
  ri_up : forall i p, nth_error (r_pages r) i = Some p -> rp_key p <> root_key ->
    exists j q h e, nth_error (r_pages r) j = Some q /\ rp_loaded q = true /\ In h hs /\ pi_key h = rp_key q /\ In e (pi_ents h) /\ is_sub e = true /\ e_key e = rp_key p }.
(* a page of the tree has been read *)
Definition is_loaded (r : reader) (k : key) : Prop := exists i p, nth_error (r_pages r) i = Some p /\ rp_key p = k /\ rp_loaded p = true.
Definition is_seen (r : reader) (k : key) : Prop := exists i p, nth_error (r_pages r) i = Some p /\ rp_key p = k.

Lemma seen_once r i j p q : rinv r -> nth_error (r_pages r) i = Some p -> nth_error (r_pages r) j = Some q -> rp_key p = rp_key q -> i = j.
Proof. intros R A B E. destruct (ri_page r R i p A) as (S1 & _). destruct (ri_page r R j q B) as (S2 & _). rewrite E in S1. congruence. Qed.
Lemma loaded_unloaded r k i p : rinv r -> is_loaded r k -> nth_error (r_pages r) i = Some p -> rp_key p = k -> rp_loaded p = true.
Proof. intros R (j & q & Q1 & Q2 & Q3) A B. assert (i = j) as -> by (eapply seen_once; eauto; congruence). congruence. Qed.
Lemma sub_seen r h e : rinv r -> In h hs -> is_loaded r (pi_key h) -> In e (pi_ents h) -> is_sub e = true -> is_seen r (e_key e).
Proof.
  intros R A (i & p & P1 & P2 & P3) E S. destruct (ri_page r R i p P1) as (_ & h' & H1 & H2 & _ & _ & H3). rewrite P3 in H3.
  assert (h' = h) as -> by (apply page_unique; auto; congruence). destruct H3 as (_ & C & _).
  assert (IN : In (Some (e_key e)) (map (id_key r) (rp_subs p))) by (rewrite C; apply (in_map (fun e => Some (e_key e))), filter_In; auto).
  apply in_map_iff in IN. destruct IN as (j & J & _). unfold id_key in J. destruct (nth_error (r_pages r) j) as [q|] eqn:Q; [|discriminate].
  exists j, q. split; auto. cbn in J. congruence.
Qed.
Lemma loaded_intact r h : rinv r -> In h hs -> is_loaded r (pi_key h) -> intact h = true.
Proof.
  intros R A (i & p & P1 & P2 & P3). destruct (ri_page r R i p P1) as (_ & h' & H1 & H2 & _ & _ & H3). rewrite P3 in H3.
  assert (h' = h) as <- by (apply page_unique; auto; congruence). tauto.
Qed.
(* everything above a page that has been seen has been read *)
Lemma above_seen r : rinv r -> forall h q, In h hs -> In q hs -> is_seen r (pi_key h) -> child_of (pi_key h) (pi_key q) = true -> q = h \/ is_loaded r (pi_key q).
Proof.
  intros R h. remember (Z.to_nat (kd (pi_key h))) as n eqn:En. revert h En. induction n as [n IH] using lt_wf_ind. intros h En q A Q SE C.
  destruct (key_eqb_spec (pi_key h) root_key) as [E|N].
  - left. apply page_unique; auto. rewrite E in *. now apply child_of_root_only.
  - destruct SE as (i & p & P1 & P2). destruct (ri_up r R i p P1 ltac:(congruence)) as (j & pq & h' & e & J1 & J2 & J3 & J4 & J5 & J6 & J7).
    destruct (parent_of h A N) as (g & e' & G1 & G2 & G3 & G4 & G5 & G6 & G7 & G8).
    assert (I' : intact h' = true) by (eapply loaded_intact; eauto; exists j, pq; rewrite J4; auto).
    destruct (subs_unique h' g e e' J3 G1 I' G2 J5 G3 J6 G4 ltac:(congruence)) as (-> & _).
    assert (LG : is_loaded r (pi_key g)) by (exists j, pq; rewrite J4; auto).
    destruct (G8 q Q C) as [->|C']; [now left|right].
    assert (D : (Z.to_nat (kd (pi_key g)) < n)%nat) by (pose proof (page_valid_key g G1) as (V & _); lia).
    destruct (IH _ D g eq_refl q G1 Q ltac:(destruct LG as (? & ? & ? & ? & _); unfold is_seen; eauto) C') as [->|L]; auto.
Qed.
(* above a page that has not been read there is one that has been seen but not read *)
Lemma frontier r : rinv r -> forall h, In h hs -> ~ is_loaded r (pi_key h) -> exists a, In a hs /\ is_seen r (pi_key a) /\ ~ is_loaded r (pi_key a) /\ child_of (pi_key h) (pi_key a) = true.
Proof.
  intros R h. remember (Z.to_nat (kd (pi_key h))) as n eqn:En. revert h En. induction n as [n IH] using lt_wf_ind. intros h En A NL.
  destruct (key_eqb_spec (pi_key h) root_key) as [E|N].
  - exists h. split; [exact A|]. split; [|split; [exact NL|rewrite E; apply child_of_refl; unfold valid, root_key; cbn; lia]].
    destruct (ri_root r R) as (i & I). destruct (ri_seen r R _ _ I) as (p & P1 & P2). exists i, p. rewrite E. auto.
  - destruct (parent_of h A N) as (g & e & G1 & G2 & G3 & G4 & G5 & G6 & G7 & G8).
    assert (DL : {is_loaded r (pi_key g)} + {~ is_loaded r (pi_key g)}).
    { destruct (mget (pi_key g) (r_seen r)) as [i|] eqn:S.
      - destruct (nth_error (r_pages r) i) as [p|] eqn:P.
        + destruct (rp_loaded p) eqn:L.
          * left. destruct (ri_seen r R _ _ S) as (p' & P1 & P2). exists i, p. split; [auto|]. split; [congruence|auto].
          * right. intros X. destruct (ri_seen r R _ _ S) as (p' & P1 & P2). rewrite P in P1. injection P1 as <-.
            rewrite (loaded_unloaded r _ i p R X P P2) in L. discriminate.
        + right. intros _. destruct (ri_seen r R _ _ S) as (p' & P1 & P2). congruence.
      - right. intros (i & p & P1 & P2 & P3). destruct (ri_page r R i p P1) as (S' & _). congruence. }
    destruct DL as [DL|DL].
    + exists h. split; [exact A|]. split; [rewrite <- G5; eapply sub_seen; eauto|]. split; [exact NL|]. apply child_of_refl. now apply page_valid_key.
    + assert (D : (Z.to_nat (kd (pi_key g)) < n)%nat) by (pose proof (page_valid_key g G1) as (V & _); lia).
      destruct (IH _ D g eq_refl G1 DL) as (a & A1 & A2 & A3 & A4). exists a. repeat split; auto. eapply child_of_trans; eauto.
Qed.

(* ---- reading one page ---- *)
Definition grows (r r' : reader) : Prop :=
  r_cfg r' = r_cfg r /\ r_isfile r' = r_isfile r /\
  (forall i p, nth_error (r_pages r) i = Some p -> exists p', nth_error (r_pages r') i = Some p' /\ rp_key p' = rp_key p /\ (rp_loaded p = true -> p' = p)).
Lemma grows_refl r : grows r r.
Proof. repeat split; auto. intros i p P. exists p. auto. Qed.
Lemma grows_trans a b c : grows a b -> grows b c -> grows a c.
Proof.
  intros (A1 & A2 & A3) (B1 & B2 & B3). repeat split; try congruence. intros i p P. destruct (A3 i p P) as (p' & P1 & P2 & P3).
  destruct (B3 i p' P1) as (p'' & Q1 & Q2 & Q3). exists p''. split; auto. split; [congruence|]. intros L. rewrite Q3; [auto|]. rewrite P3; auto.
Qed.

Lemma seek_good r o : r_data r = f -> r_fail r = false -> 0 <= o <= Z.of_nat (length f) -> seek o r = r.
Proof.
  intros D F O. unfold seek. rewrite F. unfold seek_fails. rewrite D.
  assert (to_s 64 o = o) as ->.
  { unfold to_s. rewrite Z.mod_small by lia. change (2 ^ (64 - 1)) with (2 ^ 63). destruct (Z.ltb_spec o (2 ^ 63)); lia. }
  destruct (Z.ltb_spec o 0); [lia|]. destruct (Z.ltb_spec (Z.of_nat (length f)) o); [lia|]. rewrite andb_false_r. cbn. destruct r; cbn in *. now subst.
Qed.
Lemma read_page_tree r i p h : rinv r -> r_fail r = false -> nth_error (r_pages r) i = Some p -> rp_loaded p = false ->
  In h hs -> pi_key h = rp_key p -> pi_off h = rp_off p -> pi_size h = rp_size p ->
  read_page i r = if intact h then (with_pages (upd_nth i set_loaded (r_pages r)) r, Ok (pi_ents h)) else (r, Throw).
Proof.
  intros R F P L A K O S. unfold read_page. rewrite P.
  destruct (pt_page _ _ _ _ T h A) as (B1 & B2 & B3 & B4 & B5).
  assert (rpage_valid p = true) as ->.
  { unfold rpage_valid. rewrite L, <- K, <- O, <- S. cbn [orb]. apply andb_true_intro. split; [apply andb_true_intro; split; apply Z.leb_le; lia|]. apply key_valid_spec, page_valid_key, A. }
  cbn [negb]. rewrite <- O, <- S. rewrite seek_good by (auto; try exact (ri_data r R); lia). unfold rest_at. rewrite F, (ri_data r R).
  rewrite B2 at 1. replace (Z.to_nat (32 * Z.of_nat (length (pi_ents h)) / 32)) with (length (pi_ents h)) by (rewrite Z.mul_comm, Z.div_mul by lia; lia).
  assert (E : skipn (Z.to_nat (pi_off h)) f = flat_map entry_pack (pi_ents h) ++ skipn (Z.to_nat (pi_size h)) (skipn (Z.to_nat (pi_off h)) f)).
  { rewrite <- B5. unfold bytes_at. now rewrite firstn_skipn. }
  rewrite E, read_entries_ok by (apply Forall_forall; intros e Ie; exact (pt_entry _ _ _ _ T h e A Ie)).
  unfold intact. destruct (forallb entry_valid (pi_ents h)); destruct r; cbn in *; subst; reflexivity.
Qed.
End Tree.
