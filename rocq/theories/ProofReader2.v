(* ProofReader2.v - reading a page keeps the hierarchy consistent; FindNode *)
From Coq Require Import Permutation.
From Verif Require Import Base BaseFacts ModelFloat ModelKey ModelGeom ModelEntry ModelPoint ModelPoints ModelHeader ModelVlr ModelExtents ModelConfig
  ModelStream ModelWriter ModelReader SpecKey SpecPoint SpecWriter SpecHier SpecReader ProofKey ProofPoint ProofStream ProofTree ProofPages ProofHier ProofReader.

Lemma mget_app {V} k (a b : kmap V) : mget k (a ++ b) = match mget k a with Some v => Some v | None => mget k b end.
Proof. induction a as [|(k', v) a IH]; cbn [app mget]; auto. now destruct (key_eqb k' k). Qed.
Lemma mget_of_in {V} k v (m : kmap V) : NoDup (map fst m) -> In (k, v) m -> mget k m = Some v.
Proof.
  induction m as [|(k', v') m IH]; cbn [map fst In mget]; [tauto|]. intros N [E|I]; inversion N as [|? ? N1 N2]; subst.
  - injection E as -> ->. now rewrite key_eqb_refl.
  - destruct (key_eqb_spec k' k) as [->|]; [|auto]. exfalso. apply N1. apply (in_map fst) in I. exact I.
Qed.
Lemma combine_seq_in {A} (l : list A) : forall s m a, nth_error l m = Some a -> In (a, (s + m)%nat) (combine l (seq s (length l))).
Proof.
  induction l as [|x l IH]; intros s m a; [destruct m; discriminate|]. cbn [length seq combine In]. destruct m as [|m]; cbn [nth_error].
  - intros E. injection E as ->. left. f_equal. lia.
  - intros E. right. replace (s + S m)%nat with (S s + m)%nat by lia. now apply IH.
Qed.
Lemma combine_seq_inv {A} (l : list A) : forall s a n, In (a, n) (combine l (seq s (length l))) -> (s <= n)%nat /\ nth_error l (n - s) = Some a.
Proof.
  induction l as [|x l IH]; intros s a n; [intros []|]. cbn [length seq combine In]. intros [E|I].
  - injection E as -> ->. split; [lia|]. now rewrite Nat.sub_diag.
  - apply IH in I. destruct I as (L & N). split; [lia|]. replace (n - s)%nat with (S (n - S s)) by lia. exact N.
Qed.
Lemma combine_fst {A B} (a : list A) (b : list B) : length b = length a -> map fst (combine a b) = a.
Proof. revert b. induction a as [|x a IH]; intros [|y b] L; cbn in *; try lia; auto. f_equal. apply IH. lia. Qed.
Lemma nodup_rev {A} (l : list A) : NoDup l -> NoDup (rev l).
Proof. intros N. eapply Permutation_NoDup; [apply Permutation_rev|exact N]. Qed.

Section Tree.
Variable f : bytes.
Variables off size : Z.
Variable hs : list page_info.
Hypothesis T : page_tree f off size hs.
Hypothesis FL : Z.of_nat (length f) < 2 ^ 63.
Notation rinv := (rinv f hs).

Section OnePage.
Variables (r : reader) (i : nat) (p : rpage) (h : page_info).
Hypothesis R : rinv r.
Hypothesis P : nth_error (r_pages r) i = Some p.
Hypothesis L : rp_loaded p = false.
Hypothesis A : In h hs.
Hypothesis K : pi_key h = rp_key p.
Hypothesis I : intact h = true.
Let n := length (r_pages r).
Let subs := subs_of_ents (pi_ents h).
Let nodes := nodes_of_ents (pi_ents h).
Let P' := mkRP (rp_key p) (rp_off p) (rp_size p) true (seq n (length subs)) (rev (map (kn (pi_key h)) nodes)).
Let r' := mkR (r_data r) (r_isfile r) (r_fail r) (r_cfg r) (upd_nth i (fun _ => P') (r_pages r) ++ map page_of_entry subs)
  (rev (combine (map e_key subs) (seq n (length subs))) ++ r_seen r) (rev (map (kn (pi_key h)) nodes) ++ r_nodes r).

Lemma not_loaded_here : ~ is_loaded r (pi_key h).
Proof. intros X. rewrite (loaded_unloaded f hs r _ i p R X P (eq_sym K)) in L. discriminate. Qed.
Lemma sub_fresh e : In e subs -> mget (e_key e) (r_seen r) = None.
Proof.
  intros E. apply filter_In in E. destruct E as (E1 & E2). destruct (mget (e_key e) (r_seen r)) as [j|] eqn:S; [|reflexivity]. exfalso.
  destruct (ri_seen _ _ _ R _ _ S) as (q & Q1 & Q2).
  assert (NR : rp_key q <> root_key).
  { rewrite Q2. intros X. pose proof (sub_deeper f off size hs T h e A I E1 E2) as D. rewrite X in D. cbn [kd root_key] in D.
    pose proof (page_valid_key f off size hs T h A) as (V & _). lia. }
  destruct (ri_up _ _ _ R j q Q1 NR) as (j' & q' & h' & e' & J1 & J2 & J3 & J4 & J5 & J6 & J7).
  assert (LD : is_loaded r (pi_key h')) by (exists j', q'; rewrite J4; auto).
  destruct (subs_unique f off size hs T h h' e e' A J3 I (loaded_intact f off size hs T r h' R J3 LD) E1 J5 E2 J6 ltac:(congruence)) as (<- & _).
  exact (not_loaded_here LD).
Qed.
Lemma node_fresh e : In e nodes -> mget (e_key e) (r_nodes r) = None.
Proof.
  intros E. apply filter_In in E. destruct E as (E1 & E2). apply negb_true_iff in E2. destruct (mget (e_key e) (r_nodes r)) as [x|] eqn:S; [|reflexivity]. exfalso.
  apply (ri_nodes _ _ _ R) in S. destruct S as (j & q & h' & e' & J1 & J2 & J3 & J4 & J5 & J6 & J7 & _).
  assert (LD : is_loaded r (pi_key h')) by (exists j, q; rewrite J4; auto).
  destruct (nodes_same_page f off size hs T h h' e e' A J3 I (loaded_intact f off size hs T r h' R J3 LD) E1 J5 E2 J6 ltac:(congruence)) as (<- & _).
  exact (not_loaded_here LD).
Qed.
Lemma i_lt : (i < n)%nat.
Proof. apply nth_error_Some. now rewrite P. Qed.
Lemma pages_old j q : nth_error (r_pages r) j = Some q -> nth_error (r_pages r') j = Some (if (j =? i)%nat then P' else q).
Proof.
  intros Q. assert (j < n)%nat by (apply nth_error_Some; now rewrite Q). unfold r'. cbn [r_pages]. rewrite nth_error_app1 by (now rewrite upd_nth_length).
  rewrite upd_nth_get. destruct (Nat.eqb_spec j i) as [->|]; [|exact Q]. now rewrite P.
Qed.
Lemma pages_new m e : nth_error subs m = Some e -> nth_error (r_pages r') (n + m) = Some (page_of_entry e).
Proof.
  intros E. unfold r'. cbn [r_pages]. rewrite nth_error_app2 by (rewrite upd_nth_length; unfold n in *; lia). rewrite upd_nth_length.
  replace (n + m - length (r_pages r))%nat with m by (unfold n in *; lia). now rewrite nth_error_map, E.
Qed.
Lemma pages_inv j q : nth_error (r_pages r') j = Some q ->
  (j = i /\ q = P') \/ (j <> i /\ nth_error (r_pages r) j = Some q) \/ (exists m e, j = (n + m)%nat /\ nth_error subs m = Some e /\ q = page_of_entry e).
Proof.
  intros Q. destruct (Nat.lt_ge_cases j n) as [Lt|Ge].
  - destruct (nth_error (r_pages r) j) as [q0|] eqn:Q0; [|apply nth_error_None in Q0; unfold n in *; lia].
    rewrite (pages_old _ _ Q0) in Q. destruct (Nat.eqb_spec j i); injection Q as <-; auto.
  - right. right. unfold r' in Q. cbn [r_pages] in Q. rewrite nth_error_app2 in Q by (rewrite upd_nth_length; unfold n in *; lia). rewrite upd_nth_length in Q.
    rewrite nth_error_map in Q. fold n in Q. destruct (nth_error subs (j - n)) as [e|] eqn:E; [|discriminate]. injection Q as <-. exists (j - n)%nat, e. split; [lia|auto].
Qed.
Lemma key_kept j q : nth_error (r_pages r) j = Some q -> exists q', nth_error (r_pages r') j = Some q' /\ rp_key q' = rp_key q /\ (rp_loaded q = true -> q' = q).
Proof.
  intros Q. exists (if (j =? i)%nat then P' else q). split; [now apply pages_old|]. destruct (Nat.eqb_spec j i) as [->|]; [|auto].
  rewrite P in Q. injection Q as <-. split; [reflexivity|congruence].
Qed.
Lemma id_kept j k : id_key r j = Some k -> id_key r' j = Some k.
Proof.
  unfold id_key. destruct (nth_error (r_pages r) j) as [q|] eqn:Q; [|discriminate]. intros E. destruct (key_kept _ _ Q) as (q' & -> & E' & _). cbn in *. congruence.
Qed.
Lemma new_seen_keys : map fst (rev (combine (map e_key subs) (seq n (length subs)))) = rev (map e_key subs).
Proof. rewrite map_rev, combine_fst; auto. now rewrite seq_length, map_length. Qed.
Lemma seen_old k : (forall e, In e subs -> e_key e <> k) -> mget k (r_seen r') = mget k (r_seen r).
Proof.
  intros H. unfold r'. cbn [r_seen]. rewrite mget_app. destruct (mget k (rev _)) as [j|] eqn:E; [|reflexivity]. exfalso.
  assert (IN : In k (map fst (rev (combine (map e_key subs) (seq n (length subs)))))) by (apply mget_some_in; eauto).
  rewrite new_seen_keys in IN. apply in_rev in IN. apply in_map_iff in IN. destruct IN as (e & E1 & E2). exact (H e E2 E1).
Qed.
Lemma seen_new m e : nth_error subs m = Some e -> mget (e_key e) (r_seen r') = Some (n + m)%nat.
Proof.
  intros E. unfold r'. cbn [r_seen]. rewrite mget_app. rewrite (mget_of_in _ (n + m)%nat); [reflexivity| |].
  - rewrite new_seen_keys. apply nodup_rev. exact (page_subs_nodup f off size hs T h A I).
  - apply -> in_rev. rewrite <- (map_length e_key subs). apply combine_seq_in. now rewrite nth_error_map, E.
Qed.
Lemma old_not_sub k j e : mget k (r_seen r) = Some j -> In e subs -> e_key e <> k.
Proof. intros S E <-. rewrite (sub_fresh e E) in S. discriminate. Qed.

Lemma loaded_after k : is_loaded r' k <-> is_loaded r k \/ k = pi_key h.
Proof.
  split.
  - intros (j & q & Q1 & Q2 & Q3). destruct (pages_inv _ _ Q1) as [(-> & ->)|[(N & Q)|(m & e & -> & _ & ->)]].
    + right. rewrite <- Q2, K. reflexivity.
    + left. exists j, q. auto.
    + discriminate.
  - intros [(j & q & Q1 & Q2 & Q3)| ->].
    + destruct (key_kept _ _ Q1) as (q' & B1 & B2 & B3). exists j, q'. rewrite (B3 Q3) in *. auto.
    + exists i, P'. split; [rewrite (pages_old _ _ P), Nat.eqb_refl; reflexivity|]. split; [now rewrite K|reflexivity].
Qed.

Lemma rinv_after : rinv r'.
Proof.
  constructor.
  - exact (ri_data _ _ _ R).
  - intros j q Q. destruct (pages_inv _ _ Q) as [(-> & ->)|[(N & Q0)|(m & e & -> & E & ->)]].
    + destruct (ri_page _ _ _ R i p P) as (S & h0 & H1 & H2 & H3 & H4 & _). cbn [rp_key]. split.
      * rewrite seen_old; [exact S|]. intros e E. eapply old_not_sub; eauto.
      * exists h. assert (h0 = h) as -> by (apply (page_unique f off size hs T); auto; congruence).
        unfold P'. cbn [rp_key rp_off rp_size rp_loaded]. repeat split; auto; cbn [rp_subs rp_nodes].
        apply nth_error_ext. intros j. rewrite !nth_error_map.
        destruct (Nat.lt_ge_cases j (length subs)) as [Lt|Ge].
        -- rewrite (nth_error_nth' _ 0%nat) by (now rewrite seq_length). rewrite seq_nth by exact Lt. cbn [option_map].
           fold subs. destruct (nth_error subs j) as [e|] eqn:E; [|apply nth_error_None in E; lia]. unfold id_key. rewrite (pages_new _ _ E). reflexivity.
        -- rewrite (proj2 (nth_error_None (seq _ _) j)) by (now rewrite seq_length). fold subs. rewrite (proj2 (nth_error_None subs j)) by exact Ge. reflexivity.
    + destruct (ri_page _ _ _ R j q Q0) as (S & h0 & H1 & H2 & H3 & H4 & H5). split.
      * rewrite seen_old; [exact S|]. intros e E. eapply old_not_sub; eauto.
      * exists h0. repeat split; auto. destruct (rp_loaded q); [|exact H5]. destruct H5 as (H5 & H6 & H7). split; [exact H5|]. split; [|exact H7].
        rewrite <- H6. apply map_ext_in. intros x X.
        assert (Y : In (id_key r x) (map (id_key r) (rp_subs q))) by now apply in_map. rewrite H6 in Y. apply in_map_iff in Y. destruct Y as (e & Y & _).
        rewrite <- Y. apply id_kept. now symmetry.
    + assert (E' : In e subs) by (eapply nth_error_In; eauto). pose proof E' as E2. apply filter_In in E2. destruct E2 as (E2 & E3).
      destruct (pt_sub _ _ _ _ T h e A I E2 E3) as (_ & j & J1 & J2 & J3 & J4 & _).
      split; [exact (seen_new _ _ E)|]. exists j. cbn. repeat split; auto.
  - intros k j S. unfold r' in S. cbn [r_seen] in S. rewrite mget_app in S. destruct (mget k (rev _)) as [j'|] eqn:E.
    + injection S as ->. apply mget_in in E. apply in_rev in E. rewrite <- (map_length e_key subs) in E. apply combine_seq_inv in E. destruct E as (G & E).
      rewrite nth_error_map in E. destruct (nth_error subs (j - n)) as [e|] eqn:E2; [|discriminate]. cbn in E. injection E as <-.
      exists (page_of_entry e). split; [|reflexivity]. pose proof (pages_new _ _ E2) as X. replace (n + (j - n))%nat with j in X by lia. exact X.
    + destruct (ri_seen _ _ _ R _ _ S) as (q & Q1 & Q2). destruct (key_kept _ _ Q1) as (q' & B1 & B2 & _). exists q'. split; [exact B1|congruence].
  - unfold r'. cbn [r_seen]. rewrite map_app, new_seen_keys. apply nodup_app.
    + apply nodup_rev. exact (page_subs_nodup f off size hs T h A I).
    + exact (ri_nodup _ _ _ R).
    + intros k X Y. apply in_rev, in_map_iff in X. destruct X as (e & E1 & E2). apply mget_some_in in Y. destruct Y as (j & Y). exact (old_not_sub _ _ _ Y E2 E1).
  - destruct (ri_root _ _ _ R) as (j & J). exists j. rewrite seen_old; [exact J|]. intros e E. eapply old_not_sub; eauto.
  - intros k x. unfold r'. cbn [r_nodes]. rewrite mget_app. fold nodes.
    assert (ND : NoDup (map fst (rev (map (kn (pi_key h)) nodes)))).
    { rewrite map_rev, map_map. apply nodup_rev. exact (page_nodes_nodup f off size hs T h A I). }
    split.
    + destruct (mget k (rev _)) as [y|] eqn:E.
      * intros X. injection X as ->. apply mget_in, in_rev, in_map_iff in E. destruct E as (e & E1 & E2). injection E1 as E0 E1.
        apply filter_In in E2. destruct E2 as (E2 & E3). apply negb_true_iff in E3.
        exists i, P', h, e. split; [pose proof (pages_old _ _ P) as X; rewrite Nat.eqb_refl in X; exact X|]. repeat split; auto.
      * intros X. apply (ri_nodes _ _ _ R) in X. destruct X as (j & q & h' & e & J1 & J2 & J3 & J4 & J5 & J6 & J7 & J8).
        destruct (key_kept _ _ J1) as (q' & B1 & B2 & B3). exists j, q', h', e. rewrite (B3 J2) in *. repeat split; auto.
    + intros (j & q & h' & e & J1 & J2 & J3 & J4 & J5 & J6 & J7 & J8).
      destruct (pages_inv _ _ J1) as [(-> & ->)|[(N & Q0)|(m & e' & -> & E & ->)]].
      * assert (h' = h) as -> by (apply (page_unique f off size hs T); auto; rewrite J4, K; reflexivity).
        rewrite (mget_of_in k x); [reflexivity|exact ND|]. apply -> in_rev. apply in_map_iff. exists e. split; [unfold kn; congruence|]. apply filter_In. now rewrite J6.
      * destruct (mget k (rev _)) as [y|] eqn:E.
        -- exfalso. apply mget_in, in_rev, in_map_iff in E. destruct E as (e' & E1 & E2). injection E1 as E0 E1.
           assert (X : mget (e_key e') (r_nodes r) = Some x). { rewrite E0. apply (ri_nodes _ _ _ R). exists j, q, h', e. repeat split; auto. }
           rewrite (node_fresh e' E2) in X. discriminate.
        -- apply (ri_nodes _ _ _ R). exists j, q, h', e. repeat split; auto.
      * discriminate.
  - intros j q Q NR. destruct (pages_inv _ _ Q) as [(-> & ->)|[(N & Q0)|(m & e & -> & E & ->)]].
    + destruct (ri_up _ _ _ R i p P NR) as (j' & q' & h' & e & J1 & J2 & J3 & J4 & J5 & J6 & J7).
      destruct (key_kept _ _ J1) as (q'' & B1 & B2 & B3). exists j', q'', h', e. rewrite (B3 J2) in *. repeat split; auto.
    + destruct (ri_up _ _ _ R j q Q0 NR) as (j' & q' & h' & e & J1 & J2 & J3 & J4 & J5 & J6 & J7).
      destruct (key_kept _ _ J1) as (q'' & B1 & B2 & B3). exists j', q'', h', e. rewrite (B3 J2) in *. repeat split; auto.
    + assert (E' : In e subs) by (eapply nth_error_In; eauto). apply filter_In in E'. destruct E' as (E2 & E3).
      exists i, P', h, e. split; [pose proof (pages_old _ _ P) as X; rewrite Nat.eqb_refl in X; exact X|]. repeat split; auto.
Qed.
Lemma grows_after : grows r r'.
Proof. repeat split; auto. exact key_kept. Qed.
Lemma parse_intact : r_fail r = false -> pi_off h = rp_off p -> pi_size h = rp_size p -> read_and_parse i r = (r', Ok tt).
Proof.
  intros F O S. unfold read_and_parse. rewrite P. rewrite (read_page_tree f off size hs T FL r i p h R F P L A K O S), I. f_equal.
  destruct (ri_page _ _ _ R i p P) as (_ & h0 & H1 & H2 & H3 & H4 & H5). rewrite L in H5. destruct H5 as (H5 & H6).
  rewrite (add_entries_closed i (rp_key p) (pi_ents h) _ (set_loaded p)).
  - subst r' P' n subs nodes. cbn [with_pages set_loaded r_data r_isfile r_fail r_cfg r_pages r_seen r_nodes rp_key rp_off rp_size rp_loaded rp_subs rp_nodes].
    rewrite upd_nth_length, H5, H6, upd_nth_twice, app_nil_r, K. reflexivity.
  - cbn [with_pages r_pages]. now rewrite upd_nth_get, Nat.eqb_refl, P.
  - apply Forall_forall. apply forallb_forall. exact I.
  - exact (page_subs_nodup f off size hs T h A I).
  - exact (page_nodes_nodup f off size hs T h A I).
  - exact sub_fresh.
  - intros e E. split; [now apply node_fresh|]. cbn. now rewrite H6.
Qed.
End OnePage.

Lemma parse_damaged r i p h : rinv r -> nth_error (r_pages r) i = Some p -> rp_loaded p = false -> In h hs -> pi_key h = rp_key p -> pi_off h = rp_off p -> pi_size h = rp_size p ->
  intact h = false -> r_fail r = false -> read_and_parse i r = (r, Throw).
Proof. intros R P L A K O S I F. unfold read_and_parse. rewrite P. now rewrite (read_page_tree f off size hs T FL r i p h R F P L A K O S), I. Qed.

(* reading the page at index i *)
Lemma parse_spec r i p h : rinv r -> r_fail r = false -> nth_error (r_pages r) i = Some p -> rp_loaded p = false -> In h hs -> pi_key h = rp_key p ->
  (intact h = false /\ read_and_parse i r = (r, Throw)) \/
  (intact h = true /\ exists r', read_and_parse i r = (r', Ok tt) /\ rinv r' /\ r_fail r' = false /\ grows r r' /\ (forall k, is_loaded r' k <-> is_loaded r k \/ k = pi_key h)).
Proof.
  intros R F P L A K. destruct (ri_page _ _ _ R i p P) as (_ & h0 & H1 & H2 & H3 & H4 & _).
  assert (h0 = h) as -> by (apply (page_unique f off size hs T); auto; congruence). destruct (intact h) eqn:I.
  - right. split; [reflexivity|]. eexists. split; [exact (parse_intact r i p h R P L A K I F H3 H4)|].
    split; [exact (rinv_after r i p h R P L A K I)|]. split; [exact F|]. split; [apply grows_after; assumption|apply loaded_after; assumption].
  - left. split; [reflexivity|]. exact (parse_damaged r i p h R P L A K H3 H4 I F).
Qed.

(* ---- FindNode ---- *)
Lemma nearest_seen_some ks seen i : nearest_seen ks seen = Some i -> exists a k b, ks = a ++ k :: b /\ mget k seen = Some i /\ forall q, In q a -> mget q seen = None.
Proof.
  induction ks as [|k ks IH]; [discriminate|]. cbn [nearest_seen]. destruct (mget k seen) as [j|] eqn:E.
  - intros X. injection X as ->. exists [], k, ks. repeat split; auto. intros q [].
  - intros X. destruct (IH X) as (a & k' & b & -> & B & C). exists (k :: a), k', b. repeat split; auto. intros q [<-|Q]; auto.
Qed.
Lemma nearest_seen_none ks seen : nearest_seen ks seen = None -> forall q, In q ks -> mget q seen = None.
Proof. induction ks as [|k ks IH]; [intros _ q []|]. cbn [nearest_seen]. destruct (mget k seen) eqn:E; [discriminate|]. intros X q [<-|Q]; auto. Qed.
Lemma parents_in k q : In q (get_parents true k) <-> child_of k q = true.
Proof.
  unfold child_of. rewrite existsb_exists. split.
  - intros H. exists q. split; auto. apply key_eqb_refl.
  - intros (x & X & E). apply key_eqb_eq in E. now subst.
Qed.
(* ancestors are listed from the key upwards *)
Lemma parents_order k a x b y : get_parents true k = a ++ x :: b -> In y b -> kd y < kd x.
Proof.
  intros E Y. destruct (valid_dec k) as [V|V]; [|rewrite get_parents_invalid in E by exact V; destruct a; discriminate].
  rewrite get_parents_spec in E by exact V. set (g := fun i => ancestor i k) in E. revert E. generalize (Z.to_nat (kd k) + 1)%nat. intros m. generalize 0%nat. intros s E.
  revert a m s E. induction a as [|z a IH]; intros m s E; (destruct m as [|m]; [discriminate|]); cbn [seq map app] in E; injection E as E0 E.
  - rewrite <- E in Y. apply in_map_iff in Y. destruct Y as (j & <- & J). apply in_seq in J. rewrite <- E0. subst g. unfold ancestor. cbn [kd]. lia.
  - eapply IH. exact E.
Qed.
Lemma nearest_spec r k : rinv r ->
  match nearest_seen (get_parents true k) (r_seen r) with
  | None => forall h, In h hs -> child_of k (pi_key h) = true -> ~ is_seen r (pi_key h)
  | Some i => exists p h, nth_error (r_pages r) i = Some p /\ In h hs /\ pi_key h = rp_key p /\ child_of k (pi_key h) = true /\
      forall g, In g hs -> child_of k (pi_key g) = true -> is_seen r (pi_key g) -> kd (pi_key g) <= kd (pi_key h)
  end.
Proof.
  intros R. assert (SM : forall q, is_seen r q -> exists j, mget q (r_seen r) = Some j).
  { intros q (j & p & P1 & <-). exists j. now destruct (ri_page _ _ _ R j p P1). }
  destruct (nearest_seen (get_parents true k) (r_seen r)) as [i|] eqn:E.
  - apply nearest_seen_some in E. destruct E as (a & x & b & E & S & N). destruct (ri_seen _ _ _ R _ _ S) as (p & P1 & P2).
    destruct (ri_page _ _ _ R i p P1) as (_ & h & H1 & H2 & _). exists p, h.
    assert (CX : child_of k x = true) by (apply parents_in; rewrite E; apply in_or_app; right; now left).
    repeat split; auto; [congruence|]. intros g G C SG. apply parents_in in C. rewrite E in C. apply in_app_or in C. destruct C as [C|[C|C]].
    + destruct (SM _ SG) as (j & J). rewrite (N _ C) in J. discriminate.
    + rewrite <- C. assert (x = pi_key h) as -> by congruence. lia.
    + pose proof (parents_order _ _ _ _ _ E C). assert (x = pi_key h) as <- by congruence. lia.
  - intros h H C SH. destruct (SM _ SH) as (j & J). pose proof (nearest_seen_none _ _ E (pi_key h) (proj2 (parents_in _ _) C)). congruence.
Qed.
Lemma stored_unique k n n' : stored_node hs k n -> stored_node hs k n' -> n = n'.
Proof.
  intros (i & e & A1 & A2 & A3 & A4 & A5 & ->) (i' & e' & B1 & B2 & B3 & B4 & B5 & ->).
  destruct (nodes_same_page f off size hs T i i' e e') as (-> & ->); auto. congruence.
Qed.
Lemma have_node r k n : rinv r -> mget k (r_nodes r) = Some n -> stored_node hs k n.
Proof.
  intros R M. apply (ri_nodes _ _ _ R) in M. destruct M as (j & q & h & e & J1 & J2 & J3 & J4 & J5 & J6 & J7 & J8). exists h, e. repeat split; auto.
  apply (loaded_intact f off size hs T r h R J3). exists j, q. rewrite J4. auto.
Qed.
Lemma not_have r k : rinv r -> mget k (r_nodes r) = None -> forall h e, In h hs -> is_loaded r (pi_key h) -> In e (pi_ents h) -> is_sub e = false -> e_key e <> k.
Proof.
  intros R M h e A (j & q & J1 & J2 & J3) E S <-.
  assert (X : mget (e_key e) (r_nodes r) = Some (mkNode e (pi_key h))) by (apply (ri_nodes _ _ _ R); exists j, q, h, e; repeat split; auto). congruence.
Qed.
(* when the nearest page that has been seen has been read, every page around the key has *)
Lemma all_loaded r k : rinv r -> (forall i p h, nearest_seen (get_parents true k) (r_seen r) = Some i -> nth_error (r_pages r) i = Some p -> In h hs -> pi_key h = rp_key p -> rp_loaded p = true) ->
  forall g, In g hs -> child_of k (pi_key g) = true -> is_loaded r (pi_key g).
Proof.
  intros R H g G C.
  assert (DL : is_loaded r (pi_key g) \/ ~ is_loaded r (pi_key g)).
  { destruct (mget (pi_key g) (r_seen r)) as [i|] eqn:S.
    - destruct (ri_seen _ _ _ R _ _ S) as (p & P1 & P2). destruct (rp_loaded p) eqn:Lp.
      + left. exists i, p. auto.
      + right. intros X. rewrite (loaded_unloaded f hs r _ i p R X P1 P2) in Lp. discriminate.
    - right. intros (i & p & P1 & P2 & _). destruct (ri_page _ _ _ R i p P1) as (S' & _). congruence. }
  destruct DL as [DL|DL]; [exact DL|]. exfalso.
  destruct (frontier f off size hs T r R g G DL) as (a & A1 & A2 & A3 & A4).
  pose proof (child_of_trans _ _ _ C A4) as CA.
  pose proof (nearest_spec r k R) as N. destruct (nearest_seen (get_parents true k) (r_seen r)) as [i|] eqn:E.
  - destruct N as (p & h & P1 & H1 & H2 & H3 & H4). pose proof (H i p h eq_refl P1 H1 H2) as Lp.
    pose proof (H4 a A1 CA A2) as D. pose proof (child_of_chain _ _ _ H3 CA D) as CH.
    destruct (above_seen f off size hs T r R h a H1 A1) as [->|X]; auto; [exists i, p; auto|]. apply A3. exists i, p. auto.
  - exact (N a A1 CA A2).
Qed.
Definition found (k : key) (o : outcome node) : Prop :=
  (forall n, stored_node hs k n -> o = Ok n) /\
  ((forall n, ~ stored_node hs k n) -> (blocked hs k -> o = Throw) /\ (~ blocked hs k -> o = Ok invalid_node)).
Lemma find_node_spec k : forall fuel r, rinv r -> r_fail r = false ->
  (forall i p, nearest_seen (get_parents true k) (r_seen r) = Some i -> nth_error (r_pages r) i = Some p -> kd k - kd (rp_key p) + 2 <= Z.of_nat fuel) -> (0 < fuel)%nat ->
  exists r' o, find_node fuel k r = Some (r', o) /\ rinv r' /\ r_fail r' = false /\ grows r r' /\ found k o /\ (o <> Throw -> mget k (r_nodes r) = None -> forall g, In g hs -> child_of k (pi_key g) = true -> (forall n, ~ stored_node hs k n) -> is_loaded r' (pi_key g)).
Proof.
  induction fuel as [|fuel IH]; intros r R F D Pos; [lia|]. cbn [find_node].
  destruct (mget k (r_nodes r)) as [n|] eqn:M.
  - pose proof (have_node r k n R M) as HN. exists r, (Ok n). split; [reflexivity|]. split; [exact R|]. split; [exact F|]. split; [apply grows_refl|].
    split; [|discriminate]. split; [|intros NS; exfalso; exact (NS n HN)]. intros n' H'. f_equal. eapply stored_unique; eauto.
  - assert (FIN : (forall i p h, nearest_seen (get_parents true k) (r_seen r) = Some i -> nth_error (r_pages r) i = Some p -> In h hs -> pi_key h = rp_key p -> rp_loaded p = true) ->
       found k (Ok invalid_node) /\ (forall g, In g hs -> child_of k (pi_key g) = true -> is_loaded r (pi_key g))).
    { intros H. pose proof (all_loaded r k R H) as AL. split; [|exact AL]. split.
      - intros n (i & e & A1 & A2 & A3 & A4 & A5 & ->). exfalso. pose proof (pt_inside _ _ _ _ T i e A1 A2 A3) as CI. rewrite A5 in CI.
        exact (not_have r k R M i e A1 (AL i A1 CI) A3 A4 A5).
      - intros NS. split; [|auto]. intros (i & A1 & A2 & A3). exfalso. rewrite (loaded_intact f off size hs T r i R A1 (AL i A1 A3)) in A2. discriminate. }
    pose proof (nearest_spec r k R) as N. destruct (nearest_seen (get_parents true k) (r_seen r)) as [i|] eqn:E.
    + destruct N as (p & h & P1 & H1 & H2 & H3 & H4). rewrite P1. destruct (rp_loaded p) eqn:Lp.
      * destruct FIN as (FA & FB). { intros i' p' h' X Y _ _. injection X as <-. congruence. }
        exists r, (Ok invalid_node). split; [reflexivity|]. split; [exact R|]. split; [exact F|]. split; [apply grows_refl|]. split; [exact FA|]. auto.
      * destruct (parse_spec r i p h R F P1 Lp H1 H2) as [(I & PE)|(I & r1 & PE & R1 & F1 & G1 & LD)].
        -- rewrite PE. cbn [and_then]. exists r, Throw. split; [reflexivity|]. split; [exact R|]. split; [exact F|]. split; [apply grows_refl|]. split; [|congruence]. split; [|intros NS; split; [reflexivity|]].
           ++ intros n (j & e & A1 & A2 & A3 & A4 & A5 & ->). exfalso.
              pose proof (pt_inside _ _ _ _ T j e A1 A2 A3) as CI. rewrite A5 in CI.
              assert (SH : is_seen r (pi_key h)) by (exists i, p; auto).
              destruct (Z.le_gt_cases (kd (pi_key j)) (kd (pi_key h))) as [Le|Gt].
              ** pose proof (child_of_chain _ _ _ H3 CI Le) as CH. destruct (above_seen f off size hs T r R h j H1 A1 SH CH) as [->|X]; [congruence|].
                 exact (not_have r k R M j e A1 X A3 A4 A5).
              ** pose proof (child_of_chain _ _ _ CI H3 ltac:(lia)) as CH.
                 assert (NL : ~ is_loaded r (pi_key j)). { intros X. exact (not_have r k R M j e A1 X A3 A4 A5). }
                 destruct (frontier f off size hs T r R j A1 NL) as (a & B1 & B2 & B3 & B4).
                 pose proof (H4 a B1 (child_of_trans _ _ _ CI B4) B2) as DA. 
                 assert (a = h).
                 { destruct (above_seen f off size hs T r R h a H1 B1 SH) as [X|X]; auto; [|contradiction]. exact (child_of_chain _ _ _ H3 (child_of_trans _ _ _ CI B4) DA). }
                 subst a. clear B1 B2 B3 B4 DA.
                 (* no undamaged page lies inside a damaged one *)
                 assert (NO : forall m j, (Z.to_nat (kd (pi_key j)) < m)%nat -> In j hs -> child_of (pi_key j) (pi_key h) = true -> j = h).
                 { induction m as [|m IHm]; [lia|]. intros g Dg Ig Cg. destruct (key_eqb_spec (pi_key g) root_key) as [Er|Nr].
                   - apply (page_unique f off size hs T); auto. rewrite Er in *. symmetry. now apply (child_of_root_only f off size hs T).
                   - destruct (parent_of f off size hs T g Ig Nr) as (g' & e' & X1 & X2 & X3 & X4 & X5 & X6 & X7 & X8).
                     destruct (X8 h H1 Cg) as [->|Y]; [reflexivity|]. exfalso.
                     assert (g' = h); [|congruence]. apply IHm; auto. pose proof (page_valid_key f off size hs T g' X1) as (V & _). lia. }
                 rewrite (NO _ j (Nat.lt_succ_diag_r _) A1 CH) in A2. congruence.
           ++ intros NB. exfalso. apply NB. exists h. auto.
        -- rewrite PE. cbn [and_then]. 
           assert (FU : forall i' p', nearest_seen (get_parents true k) (r_seen r1) = Some i' -> nth_error (r_pages r1) i' = Some p' -> kd k - kd (rp_key p') + 2 <= Z.of_nat fuel \/ rp_loaded p' = true).
           { intros i' p' E1 P1'. pose proof (nearest_spec r1 k R1) as N1. rewrite E1 in N1. destruct N1 as (p1 & h1 & Q1 & Q2 & Q3 & Q4 & Q5).
             rewrite P1' in Q1. injection Q1 as <-. assert (SH : is_seen r1 (pi_key h)).
             { destruct G1 as (_ & _ & G1). destruct (G1 i p P1) as (p2 & X1 & X2 & _). exists i, p2. split; [auto|congruence]. }
             pose proof (Q5 h H1 H3 SH) as DD. specialize (D i p eq_refl P1). rewrite H2 in DD. rewrite <- Q3.
             destruct (Z.eq_dec (kd (pi_key h1)) (kd (pi_key h))) as [EE|NE]; [|left; rewrite H2 in NE; lia]. right.
             assert (h1 = h) as ->. { apply (page_unique f off size hs T); auto. symmetry. apply child_of_same_depth; [|lia]. apply (child_of_chain _ _ _ Q4 H3). lia. }
             apply (loaded_unloaded f hs r1 (pi_key h) i' p' R1); auto. apply LD. now right. }
           destruct fuel as [|fuel']; [specialize (D i p eq_refl P1); pose proof (child_of_depth _ _ H3); rewrite H2 in *; lia|].
           (* a nearest page that has been read ends the search whatever the bound *)
           assert (CASES : (forall i' p', nearest_seen (get_parents true k) (r_seen r1) = Some i' -> nth_error (r_pages r1) i' = Some p' -> kd k - kd (rp_key p') + 2 <= Z.of_nat (S fuel')) \/
              exists i' p', nearest_seen (get_parents true k) (r_seen r1) = Some i' /\ nth_error (r_pages r1) i' = Some p' /\ rp_loaded p' = true).
           { destruct (nearest_seen (get_parents true k) (r_seen r1)) as [i'|] eqn:E1; [|left; discriminate].
             pose proof (nearest_spec r1 k R1) as N1. rewrite E1 in N1. destruct N1 as (p1 & h1 & Q1 & _). destruct (FU i' p1 eq_refl Q1) as [X|X].
             - left. intros i'' p'' Y1 Y2. injection Y1 as <-. rewrite Q1 in Y2. injection Y2 as <-. exact X.
             - right. exists i', p1. auto. }
           destruct CASES as [C|(i' & p' & C1 & C2 & C3)].
           ++ destruct (IH r1 R1 F1 C ltac:(lia)) as (r2 & o & X1 & X2 & X3 & X4 & X5 & X6). exists r2, o. split; [exact X1|]. split; [exact X2|]. split; [exact X3|].
              split; [eapply grows_trans; eauto|]. split; [exact X5|]. intros NT _ g Ig Cg NS.
              destruct (mget k (r_nodes r1)) as [n|] eqn:M1; [exfalso; exact (NS n (have_node r1 k n R1 M1))|]. apply X6; auto.
           ++ cbn [find_node]. destruct (mget k (r_nodes r1)) as [n|] eqn:M1.
              ** exists r1, (Ok n). pose proof (have_node r1 k n R1 M1) as HN. split; [reflexivity|]. split; [exact R1|]. split; [exact F1|]. split; [exact G1|].
                 split; [|intros _ _ g _ _ NS; exfalso; exact (NS n HN)]. split; [|intros NS; exfalso; exact (NS n HN)].
                 intros n' H'. f_equal. eapply stored_unique; eauto.
              ** rewrite C1, C2, C3. 
                 assert (AL : forall g, In g hs -> child_of k (pi_key g) = true -> is_loaded r1 (pi_key g)).
                 { apply (all_loaded r1 k R1). intros i'' p'' h'' Y1 Y2 _ _. rewrite C1 in Y1. injection Y1 as <-. congruence. }
                 exists r1, (Ok invalid_node). split; [reflexivity|]. split; [exact R1|]. split; [exact F1|]. split; [exact G1|].
                 split; [|auto]. split; [|intros NS; split; [|auto]].
                 --- intros n (j & e & A1 & A2 & A3 & A4 & A5 & ->). exfalso. pose proof (pt_inside _ _ _ _ T j e A1 A2 A3) as CI. rewrite A5 in CI.
                     exact (not_have r1 k R1 M1 j e A1 (AL j A1 CI) A3 A4 A5).
                 --- intros (j & A1 & A2 & A3). exfalso. rewrite (loaded_intact f off size hs T r1 j R1 A1 (AL j A1 A3)) in A2. discriminate.
    + destruct FIN as (FA & FB); [discriminate|]. exists r, (Ok invalid_node). split; [reflexivity|]. split; [exact R|]. split; [exact F|]. split; [apply grows_refl|]. split; [exact FA|]. auto.
Qed.
End Tree.
