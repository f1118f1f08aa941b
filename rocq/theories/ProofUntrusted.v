(* ProofUntrusted.v - queries on arbitrary files *)
From Coq Require Import Permutation.
From Verif Require Import Base BaseFacts ModelFloat ModelKey ModelGeom ModelEntry ModelPoint ModelPoints ModelHeader ModelVlr ModelExtents ModelConfig
  ModelStream ModelWriter ModelReader ModelClosed SpecKey SpecPoint SpecWriter SpecHier SpecFile SpecReader SpecData SpecUntrusted ProofPoint ProofPoints ProofStream ProofReader ProofReader2 ProofReader3 ProofReader6 ProofOpen ProofOpen3 ProofClosed ProofData ProofData2.
Open Scope Z_scope.

Lemma take_len n b x r : take_bytes n b = Some (x, r) -> length b = (n + length r)%nat.
Proof. intros E. assert (L : (n <= length b)%nat) by (unfold take_bytes in E; destruct (Nat.leb_spec n (length b)); [assumption|discriminate]). apply take_some in E as (_ & ->). rewrite skipn_length. lia. Qed.
Lemma dec_s4_len b v r : dec_s 4 b = Some (v, r) -> length b = (4 + length r)%nat /\ - 2 ^ 31 <= v < 2 ^ 31.
Proof.
  unfold dec_s. destruct (take_bytes 4 b) as [(x, y)|] eqn:E; [|discriminate]. apply take_len in E. intros Q. assert (v = to_s 32 (le_dec x) /\ r = y) as (-> & ->) by (split; [change 32 with (8 * Z.of_nat 4); congruence|congruence]).
  split; [exact E|]. apply (BaseFacts.to_s_range 32). lia.
Qed.
Lemma dec_u8_len b v r : dec_u 8 b = Some (v, r) -> length b = (8 + length r)%nat.
Proof. unfold dec_u. destruct (take_bytes 8 b) as [(x, y)|] eqn:E; [|discriminate]. apply take_len in E. intros Q. assert (r = y) as -> by congruence. exact E. Qed.
Lemma unpack_len b e r : entry_unpack b = Some (e, r) -> length b = (32 + length r)%nat /\ e_count e <= INT32_MAX.
Proof.
  unfold entry_unpack. intros E. destruct (dec_s 4 b) as [(a1, b1)|] eqn:E1; [|discriminate]. destruct (dec_s 4 b1) as [(a2, b2)|] eqn:E2; [|discriminate]. destruct (dec_s 4 b2) as [(a3, b3)|] eqn:E3; [|discriminate].
  destruct (dec_s 4 b3) as [(a4, b4)|] eqn:E4; [|discriminate]. destruct (dec_u 8 b4) as [(a5, b5)|] eqn:E5; [|discriminate]. destruct (dec_s 4 b5) as [(a6, b6)|] eqn:E6; [|discriminate].
  destruct (dec_s 4 b6) as [(a7, b7)|] eqn:E7; [|discriminate]. injection E as <- <-. apply dec_s4_len in E1, E2, E3, E4, E6, E7. apply dec_u8_len in E5. cbn [e_count]. unfold INT32_MAX. change (2 ^ 31) with 2147483648 in *. lia.
Qed.
Lemma unpack_short b : entry_unpack b = None -> (length b < 32)%nat.
Proof.
  intros E. destruct (Nat.lt_ge_cases (length b) 32) as [H|H]; [exact H|exfalso]. unfold entry_unpack in E.
  destruct (dec_s_total 4 b) as (a1 & b1 & Q & L1); [lia|]; rewrite Q in E; clear Q. destruct (dec_s_total 4 b1) as (a2 & b2 & Q & L2); [lia|]; rewrite Q in E; clear Q. destruct (dec_s_total 4 b2) as (a3 & b3 & Q & L3); [lia|]; rewrite Q in E; clear Q.
  destruct (dec_s_total 4 b3) as (a4 & b4 & Q & L4); [lia|]; rewrite Q in E; clear Q. destruct (dec_u_total 8 b4) as (a5 & b5 & Q & L5); [lia|]; rewrite Q in E; clear Q. destruct (dec_s_total 4 b5) as (a6 & b6 & Q & L6); [lia|]; rewrite Q in E; clear Q.
  destruct (dec_s_total 4 b6) as (a7 & b7 & Q & L7); [lia|]; rewrite Q in E; clear Q. discriminate.
Qed.
Lemma short_nonempty b : short_entry b = UB -> (0 < length b)%nat.
Proof. unfold short_entry. destruct (dec_s 4 b) as [(a1, b1)|] eqn:E1; [|discriminate]. apply dec_s4_len in E1. lia. Qed.
Lemma read_ub : forall n b fl, read_entries n b = (fl, UB) -> (0 < length b < 32 * n)%nat.
Proof.
  induction n as [|n IH]; intros b fl E; cbn [read_entries] in E; [discriminate|]. destruct (entry_unpack b) as [(e, b')|] eqn:U.
  - apply unpack_len in U as (U & _). destruct (entry_valid e); cbn [negb] in E; [|discriminate]. destruct (read_entries n b') as (fl', [l| |]) eqn:R; try discriminate. apply IH in R. lia.
  - apply (f_equal snd) in E. cbn [snd] in E. apply short_nonempty in E. apply unpack_short in U. lia.
Qed.
Lemma read_ok : forall n b fl l, read_entries n b = (fl, Ok l) -> length l = n /\ entries_from b l /\ Forall (fun e => entry_valid e = true /\ e_count e <= INT32_MAX) l.
Proof.
  induction n as [|n IH]; intros b fl l E; cbn [read_entries] in E; [injection E as _ <-; repeat split; constructor|]. destruct (entry_unpack b) as [(e, b')|] eqn:U.
  - destruct (entry_valid e) eqn:V; cbn [negb] in E; [|discriminate]. destruct (read_entries n b') as (fl', [l'| |]) eqn:R; try discriminate. injection E as _ <-. apply IH in R as (R1 & R2 & R3).
    split; [cbn [length]; lia|]. split; [cbn [entries_from]; eauto|]. constructor; [|exact R3]. split; [exact V|now apply unpack_len in U].
  - unfold short_entry in E. destruct (_ : option key) as [k|]; [destruct (key_valid k)|]; discriminate.
Qed.
Lemma forall_mset {V} (P : key * V -> Prop) k v m : P (k, v) -> Forall P m -> Forall P (mset k v m).
Proof. intros A B. unfold mset, mdel. constructor; [exact A|]. rewrite Forall_forall in *. intros x X. apply filter_In in X as (X & _). auto. Qed.
Lemma forall_upd {A} (P : A -> Prop) g i l : Forall P l -> (forall a, P a -> nth_error l i = Some a -> P (g a)) -> Forall P (upd_nth i g l).
Proof.
  intros F G. rewrite Forall_forall in *. intros x X. apply In_nth_error in X as (j & X). rewrite upd_nth_get in X. destruct (Nat.eqb_spec j i) as [Ej|N]; [rewrite Ej in X|].
  - destruct (nth_error l i) as [a|] eqn:Q; [|discriminate]. injection X as <-. apply G; [|reflexivity]. apply F. eapply nth_error_In; eauto.
  - apply F. eapply nth_error_In; eauto.
Qed.

Section U.
Variables (f : bytes) (off size : Z) (c : config).
Hypothesis FIT : forall o s, page_of f off size o s -> ~ cut_page f o s.
Definition fnode (n : node) : Prop := node_in f off size (n_entry n) /\ e_count (n_entry n) <= INT32_MAX.
Definition gpage (m : nat) (p : rpage) : Prop := page_of f off size (rp_off p) (rp_size p) /\ Forall (fun i => (i < m)%nat) (rp_subs p) /\ Forall (fun x => fnode (snd x)) (rp_nodes p).
Record winv (r : reader) : Prop := { wi_data : r_data r = f; wi_cfg : r_cfg r = c; wi_pages : Forall (gpage (length (r_pages r))) (r_pages r);
  wi_seen : Forall (fun x => (snd x < length (r_pages r))%nat) (r_seen r); wi_nodes : Forall (fun x => fnode (snd x)) (r_nodes r) }.
Lemma winv_fail b r : winv r -> winv (with_fail b r).
Proof. intros [A B C D E]. constructor; auto. Qed.
Lemma winv_seek o r : winv r -> winv (seek o r).
Proof. intros W. destruct (flags_seek o r) as (b & ->). now apply winv_fail. Qed.
Lemma gpage_more m m' p : (m <= m')%nat -> gpage m p -> gpage m' p.
Proof. intros L (A & B & C). split; [exact A|]. split; [|exact C]. eapply Forall_impl; [|exact B]. cbn. intros. lia. Qed.
Lemma gpage_at r i p : winv r -> nth_error (r_pages r) i = Some p -> gpage (length (r_pages r)) p.
Proof. intros W P. pose proof (wi_pages r W) as F. rewrite Forall_forall in F. apply F. eapply nth_error_In; eauto. Qed.

Lemma add_winv i pk r o s es e : winv r -> (i < length (r_pages r))%nat -> page_of f off size o s -> entries_at f o s es -> In e es -> entry_valid e = true -> e_count e <= INT32_MAX ->
  winv (add_entry i pk r e) /\ (length (r_pages r) <= length (r_pages (add_entry i pk r e)))%nat.
Proof.
  intros W I P E In_ V CT. unfold add_entry. rewrite valid_is_page by exact V. destruct (is_sub e) eqn:S.
  - cbn [r_pages]. rewrite upd_nth_length, app_length. cbn [length]. split; [|lia]. constructor; cbn [r_data r_cfg r_pages r_seen r_nodes].
    + exact (wi_data r W).
    + exact (wi_cfg r W).
    + rewrite upd_nth_length, app_length. cbn [length]. apply forall_upd.
      * apply Forall_app. split; [eapply Forall_impl; [|exact (wi_pages r W)]; intros p G; eapply gpage_more; [|exact G]; lia|]. repeat constructor. cbn [new_rpage rp_off rp_size]. eapply page_sub; eauto.
      * intros p (G1 & G2 & G3) _. split; [exact G1|]. split; [|exact G3]. cbn [add_subpage rp_subs]. apply Forall_app. split; [exact G2|]. repeat constructor. lia.
    + rewrite upd_nth_length, app_length. cbn [length]. apply forall_mset; [cbn [snd]; lia|]. eapply Forall_impl; [|exact (wi_seen r W)]. cbn. intros. lia.
    + exact (wi_nodes r W).
  - assert (FN : fnode (mkNode e pk)) by (split; [exists o, s, es; auto|exact CT]). cbn [r_pages]. rewrite upd_nth_length. split; [|lia]. constructor; cbn [r_data r_cfg r_pages r_seen r_nodes].
    + exact (wi_data r W).
    + exact (wi_cfg r W).
    + rewrite upd_nth_length. apply forall_upd; [exact (wi_pages r W)|]. intros p (G1 & G2 & G3) _. split; [exact G1|]. split; [exact G2|]. cbn [add_page_node rp_nodes]. now apply forall_mset.
    + rewrite upd_nth_length. exact (wi_seen r W).
    + apply forall_mset; [exact FN|exact (wi_nodes r W)].
Qed.
Lemma adds_winv i pk o s es : page_of f off size o s -> entries_at f o s es -> forall l r, winv r -> (i < length (r_pages r))%nat -> incl l es -> Forall (fun e => entry_valid e = true /\ e_count e <= INT32_MAX) l ->
  winv (fold_left (add_entry i pk) l r) /\ (length (r_pages r) <= length (r_pages (fold_left (add_entry i pk) l r)))%nat.
Proof.
  intros P E. induction l as [|e l IH]; intros r W I N F; cbn [fold_left]; [split; [exact W|lia]|]. inversion_clear F as [|? ? (V & CT) F'].
  destruct (add_winv i pk r o s es e W I P E (N e (or_introl eq_refl)) V CT) as (W1 & L1). destruct (IH _ W1 ltac:(lia) (fun x X => N x (or_intror X)) F') as (W2 & L2). split; [exact W2|lia].
Qed.
Lemma parse_winv r i p r' o : winv r -> nth_error (r_pages r) i = Some p -> rp_loaded p = false -> read_and_parse i r = (r', o) -> winv r' /\ (length (r_pages r) <= length (r_pages r'))%nat /\ o <> UB.
Proof.
  intros W P L E. unfold read_and_parse in E. rewrite P in E. assert (I : (i < length (r_pages r))%nat) by (apply nth_error_Some; congruence). pose proof (gpage_at r i p W P) as (G1 & _). unfold read_page in E. rewrite P in E.
  destruct (rpage_valid p) eqn:V; cbn [negb] in E; [|injection E as <- <-; split; [exact W|split; [lia|discriminate]]].
  unfold rpage_valid in V. rewrite L in V. cbn [orb] in V. apply andb_prop in V as (V & _). apply andb_prop in V as (V1 & V2). apply Z.leb_le in V1, V2.
  pose proof (winv_seek (rp_off p) r W) as W1. assert (LP : r_pages (seek (rp_off p) r) = r_pages r) by (destruct (flags_seek (rp_off p) r) as (b & ->); reflexivity).
  set (r1 := seek (rp_off p) r) in *. destruct (read_entries (Z.to_nat (rp_size p / 32)) (rest_at (rp_off p) r1)) as (fl, [l| |]) eqn:R.
  - injection E as <- <-. apply read_ok in R as (R1 & R2 & R3).
    assert (EA : entries_at f (rp_off p) (rp_size p) l).
    { split; [exact R1|]. unfold rest_at in R2. destruct (r_fail r1).
      - destruct l as [|e l]; [exact Logic.I|]. cbn [entries_from] in R2. destruct R2 as (b' & R2 & _). discriminate.
      - now rewrite (wi_data r1 W1) in R2. }
    set (r2 := with_pages (upd_nth i set_loaded (r_pages r1)) (with_fail (r_fail r1 || fl) r1)).
    assert (W2 : winv r2).
    { unfold r2. constructor; cbn [with_pages with_fail r_data r_cfg r_pages r_seen r_nodes]; rewrite ?upd_nth_length; [exact (wi_data r1 W1)|exact (wi_cfg r1 W1)| |exact (wi_seen r1 W1)|exact (wi_nodes r1 W1)].
      apply forall_upd; [exact (wi_pages r1 W1)|]. intros q (Q1 & Q2 & Q3) _. split; [exact Q1|]. split; [exact Q2|exact Q3]. }
    assert (L2 : length (r_pages r2) = length (r_pages r)) by (unfold r2; cbn [with_pages r_pages]; now rewrite upd_nth_length, LP).
    destruct (adds_winv i (rp_key p) _ _ _ G1 EA l r2 W2 ltac:(lia) (incl_refl l) R3) as (W3 & L3). split; [exact W3|]. split; [lia|discriminate].
  - injection E as <- <-. split; [now apply winv_fail|]. split; [cbn [with_fail r_pages]; rewrite LP; lia|discriminate].
  - exfalso. apply read_ub in R. apply (FIT _ _ G1). unfold rest_at in R. destruct (r_fail r1); [cbn [length] in R; lia|]. rewrite (wi_data r1 W1), skipn_length in R. unfold cut_page.
    pose proof (Z.mul_div_le (rp_size p) 32). split; lia.
Qed.

Definition safe {A} (Q : A -> Prop) (m : nat) (x : call A) : Prop := forall r o, x = Some (r, o) -> winv r /\ (m <= length (r_pages r))%nat /\ o <> UB /\ (forall a, o = Ok a -> Q a).
Lemma safe_none {A} (Q : A -> Prop) m : safe Q m None.
Proof. intros ? ? E. discriminate. Qed.
Lemma safe_ok {A} (Q : A -> Prop) m r a : winv r -> (m <= length (r_pages r))%nat -> Q a -> safe Q m (Some (r, Ok a)).
Proof. intros W L H r' o E. injection E as <- <-. split; [exact W|]. split; [exact L|]. split; [discriminate|]. intros b B. injection B as <-. exact H. Qed.
Lemma safe_throw {A} (Q : A -> Prop) m r : winv r -> (m <= length (r_pages r))%nat -> safe Q m (Some (r, Throw)).
Proof. intros W L r' o E. injection E as <- <-. split; [exact W|]. split; [exact L|]. split; discriminate. Qed.
Lemma safe_then {A B} (P : A -> Prop) (Q : B -> Prop) m x g : safe P m x -> (forall a r, winv r -> (m <= length (r_pages r))%nat -> P a -> safe Q m (g a r)) -> safe Q m (and_then x g).
Proof.
  intros X G r o E. destruct x as [[r1 [a| |]]|]; cbn [and_then] in E; try discriminate; destruct (X _ _ eq_refl) as (X1 & X2 & X3 & X4).
  - exact (G a r1 X1 X2 (X4 a eq_refl) _ _ E).
  - injection E as <- <-. split; [exact X1|]. split; [exact X2|]. split; discriminate.
  - congruence.
Qed.
Lemma safe_more {A} (Q : A -> Prop) m m' x : (m' <= m)%nat -> safe Q m x -> safe Q m' x.
Proof. intros L S r o E. destruct (S r o E) as (A1 & A2 & A3). split; [exact A1|]. split; [lia|exact A3]. Qed.
Lemma safe_parse r i p m : winv r -> (m <= length (r_pages r))%nat -> nth_error (r_pages r) i = Some p -> rp_loaded p = false -> safe (fun _ => True) m (Some (read_and_parse i r)).
Proof.
  intros W L P LD r' o E. destruct (read_and_parse i r) as (r1, o1) eqn:Q. destruct (parse_winv r i p r1 o1 W P LD Q) as (A & B & C). injection E as <- <-. split; [exact A|]. split; [lia|]. split; auto.
Qed.
Lemma seen_in r ks i : winv r -> nearest_seen ks (r_seen r) = Some i -> (i < length (r_pages r))%nat.
Proof.
  intros W. induction ks as [|k ks IH]; cbn [nearest_seen]; [discriminate|]. destruct (mget k (r_seen r)) as [j|] eqn:G; [|exact IH]. intros E. injection E as <-. apply mget_in in G. pose proof (wi_seen r W) as S. rewrite Forall_forall in S. exact (S _ G).
Qed.
Definition fnode' (n : node) : Prop := node_valid n = true -> fnode n.
Lemma safe_find k m : forall fuel r, winv r -> (m <= length (r_pages r))%nat -> safe fnode' m (find_node fuel k r).
Proof.
  induction fuel as [|fuel IH]; intros r W L; cbn [find_node]; [apply safe_none|]. destruct (mget k (r_nodes r)) as [n|] eqn:G.
  { apply safe_ok; auto. intros _. apply mget_in in G. pose proof (wi_nodes r W) as S. rewrite Forall_forall in S. exact (S _ G). }
  destruct (nearest_seen _ _) as [i|] eqn:N; [|apply safe_ok; auto; discriminate]. pose proof (seen_in _ _ _ W N) as I. destruct (nth_error (r_pages r) i) as [p|] eqn:P; [|apply nth_error_None in P; lia].
  destruct (rp_loaded p) eqn:LD; [apply safe_ok; auto; discriminate|]. eapply safe_then; [eapply safe_parse; eauto|]. intros _ r1 W1 L1 _. apply IH; auto.
Qed.
Lemma safe_each {A B} (Q : list B -> Prop) (g : A -> reader -> call (list B)) (P : A -> Prop) m : Q [] -> (forall x y, Q x -> Q y -> Q (x ++ y)) ->
  (forall a r, winv r -> (m <= length (r_pages r))%nat -> P a -> safe Q m (g a r)) -> forall l r, Forall P l -> winv r -> (m <= length (r_pages r))%nat -> safe Q m (each_call g l r).
Proof.
  intros Q0 QA G. induction l as [|a l IH]; intros r F W L; cbn [each_call]; [apply safe_ok; auto|]. inversion_clear F as [|? ? Fa Fl].
  eapply safe_then; [exact (G a r W L Fa)|]. intros x r1 W1 L1 X. eapply safe_then; [exact (IH r1 Fl W1 L1)|]. intros y r2 W2 L2 Y. apply safe_ok; auto.
Qed.
Variable od : rorders.
Hypothesis OD : visits_all od.
Lemma safe_load : forall fuel i r m, winv r -> (m <= length (r_pages r))%nat -> (i < length (r_pages r))%nat -> safe (Forall fnode) m (load_pages fuel od i r).
Proof.
  induction fuel as [|fuel IH]; intros i r m W L I; cbn [load_pages]; [apply safe_none|]. destruct (nth_error (r_pages r) i) as [p|] eqn:P; [|apply nth_error_None in P; lia].
  destruct (rpage_valid p); cbn [negb]; [|apply safe_ok; auto]. apply (safe_more _ (length (r_pages r))); [exact L|].
  eapply (safe_then (fun _ => True)). { destruct (rp_loaded p) eqn:LD; [apply safe_ok; auto|eapply safe_parse; eauto]. }
  intros _ r1 W1 L1 _. destruct (nth_error (r_pages r1) i) as [p1|] eqn:P1; [|apply nth_error_None in P1; lia]. destruct (gpage_at r1 i p1 W1 P1) as (G1 & G2 & G3). destruct OD as (O1 & O2 & _).
  apply (safe_more _ (length (r_pages r1))); [exact L1|]. eapply safe_then.
  - apply (safe_each (Forall fnode) (load_pages fuel od) (fun i => (i < length (r_pages r1))%nat)); auto.
    + intros x y X Y. now apply Forall_app.
    + intros j r2 W2 L2 J. apply IH; auto. lia.
    + rewrite Forall_forall in *. intros j J. apply G2. eapply Permutation_in; [apply O1|exact J].
  - intros l r2 W2 L2 F. apply safe_ok; auto. apply Forall_app. split; [exact F|]. rewrite Forall_forall in *. intros n N. apply (Permutation_in n (O2 _ _)) in N. apply in_map_iff in N as (x & <- & X). exact (G3 x X).
Qed.
Lemma safe_children fuel k r m : winv r -> (m <= length (r_pages r))%nat -> safe (Forall fnode) m (get_all_children_of_page fuel od k r).
Proof.
  intros W L. unfold get_all_children_of_page. destruct (key_valid k); cbn [negb]; [|apply safe_ok; auto]. eapply safe_then; [now apply safe_find|]. intros n r1 W1 L1 F.
  destruct (mget k (r_seen r1)) as [i|] eqn:G.
  - apply safe_load; auto. apply mget_in in G. pose proof (wi_seen r1 W1) as S. rewrite Forall_forall in S. exact (S _ G).
  - apply safe_ok; auto. destruct (node_valid n) eqn:V; auto.
Qed.
Lemma safe_all fuel r m : winv r -> (m <= length (r_pages r))%nat -> safe (Forall fnode) m (get_all_nodes fuel od r).
Proof. apply safe_children. Qed.
Lemma safe_pages fuel r m : winv r -> (m <= length (r_pages r))%nat -> safe (fun _ => True) m (get_page_list fuel od r).
Proof.
  intros W L. unfold get_page_list. eapply safe_then; [now apply safe_all|]. intros _ r1 W1 L1 _.
  assert (F : Forall (fun i => (i < length (r_pages r1))%nat) (ro_seen od (map snd (r_seen r1)))).
  { rewrite Forall_forall. intros i I. destruct OD as (_ & _ & O3). apply (Permutation_in i (O3 _)) in I. apply in_map_iff in I as (x & <- & X). pose proof (wi_seen r1 W1) as S. rewrite Forall_forall in S. exact (S x X). }
  induction F as [|i l I F IH]; [apply safe_ok; auto|]. destruct (nth_error (r_pages r1) i) as [p|] eqn:P; [|apply nth_error_None in P; lia].
  destruct ((fix go (l : list nat) : outcome (list key) := match l with [] => Ok [] | i :: l' => match nth_error (r_pages r1) i with None => UB | Some p => let! ks := go l' in Ok (rp_key p :: ks) end end) l) as [ks| |] eqn:G; cbn [bind].
  - apply safe_ok; auto.
  - exact IH.
  - exact IH.
Qed.
Hypothesis SH : forall e, node_in f off size e -> kd (e_key e) < INT32_MAX.
Lemma depth_defined l s res : Forall fnode l -> depth_for l s res <> UB.
Proof.
  intros F. unfold depth_for. destruct (fle res f0); [discriminate|]. pose proof (max_depth_fold l (-1)) as H. cbn zeta in H. fold (max_depth_of l) in H. destruct H as (H1 & _ & H2).
  assert (M : max_depth_of l < INT32_MAX). { destruct H2 as [->|(n & N & <-)]; [unfold INT32_MAX; lia|]. rewrite Forall_forall in F. apply SH. exact (proj1 (F n N)). }
  clear - M. revert s. generalize 0 at 1. generalize (Z.to_nat (max_depth_of l + 1)). induction n as [|n IH]; intros i s; cbn [depth_loop]; [|destruct (fle s res); [discriminate|apply IH]].
  destruct (Z.eqb_spec (max_depth_of l) INT32_MAX); [lia|discriminate].
Qed.
Lemma safe_depth fuel res r m : winv r -> (m <= length (r_pages r))%nat -> safe (fun _ => True) m (get_depth_at_resolution fuel od res r).
Proof.
  intros W L. unfold get_depth_at_resolution. eapply safe_then; [now apply safe_all|]. intros l r1 W1 L1 F. pose proof (depth_defined l (i_spacing (c_info (r_cfg r1))) res F) as D.
  destruct (depth_for _ _ _); [apply safe_ok; auto|apply safe_throw; auto|congruence].
Qed.
Lemma safe_select cond fuel res r m : winv r -> (m <= length (r_pages r))%nat -> safe (fun _ => True) m (select_nodes cond fuel od res r).
Proof.
  intros W L. unfold select_nodes. eapply safe_then; [now apply safe_depth|]. intros d r1 W1 L1 _. eapply safe_then; [now apply safe_all|]. intros l r2 W2 L2 F. apply safe_ok; auto.
Qed.

Variable cd : codec.
Hypothesis CD : sized_output cd.
Notation h := (c_hdr c).
Hypothesis SR : sane_records h.
Definition fine {A} (Q : A -> Prop) (r : reader) (x : reader * outcome A) : Prop := flags_only r (fst x) /\ snd x <> UB /\ forall a, snd x = Ok a -> Q a.
Lemma fine_safe {A} (Q : A -> Prop) r x m : winv r -> (m <= length (r_pages r))%nat -> fine Q r x -> safe Q m (Some x).
Proof.
  intros W L ((b & E) & F) r' o X. destruct x as (r1, o1). injection X as -> ->. cbn [fst snd] in *. subst r'. split; [now apply winv_fail|]. split; [exact L|exact F].
Qed.
Definition records (d : bytes) : Prop := 6 <= h_fmt h <= 8 /\ wf_bytes d /\ exists n, Z.of_nat (length d) = n * h_reclen h /\ n <= INT32_MAX.
Lemma fine_data n r : winv r -> e_count (n_entry n) <= INT32_MAX -> fine records r (get_point_data_node cd n r).
Proof.
  intros W C. split; [apply flags_data|]. unfold get_point_data_node. destruct (node_valid n); cbn [negb fst snd]; [|split; discriminate]. rewrite (wi_cfg _ (winv_seek (e_offset (n_entry n)) r W)).
  destruct (Z.eq_dec (Z.max 6 (Z.min (h_fmt h) 8)) (h_fmt h)) as [FM|FM].
  - assert (F : 6 <= h_fmt h <= 8) by lia. pose proof (SR F) as RL. pose proof (las_base_range (h_fmt h)) as LB. rewrite eb_size_ok by lia. unfold decompress_node. rewrite las_base_ok by exact F.
    destruct (Z.leb_spec (e_count (n_entry n)) 0); cbn [fst snd].
    + split; [discriminate|]. intros a A. injection A as <-. split; [exact F|]. split; [constructor|]. exists 0. cbn [length]. unfold INT32_MAX. lia.
    + destruct (Z.ltb_spec 255 (las_base (h_fmt h) + (h_reclen h - las_base (h_fmt h)))); [lia|]. destruct (r_fail _); cbn [fst snd]; [split; discriminate|].
      destruct (cd_decomp cd _ _ _ _) as [b|] eqn:D; cbn [fst snd]; [|split; discriminate]. split; [discriminate|]. intros a A. injection A as <-. apply CD in D as (D1 & D2); [|lia..].
      split; [exact F|]. split; [exact D1|]. exists (e_count (n_entry n)). split; [rewrite D2; f_equal; lia|exact C].
  - unfold h_eb_size, eb_byte_size, base_size. destruct (Z.eqb_spec (h_fmt h) 6); [lia|]. destruct (Z.eqb_spec (h_fmt h) 7); [lia|]. destruct (Z.eqb_spec (h_fmt h) 8); [lia|]. cbn [bind fst snd]. split; discriminate.
Qed.
Lemma fine_compressed n r : fine (fun _ => True) r (get_compressed_node n r).
Proof. split; [apply flags_compressed|]. unfold get_compressed_node. destruct (node_valid n); cbn [negb fst snd]; split; auto; discriminate. Qed.
(* a container whose points exist and have the format of the file *)
Definition held (x : ModelPoints.heap * points) : Prop :=
  exists ps, mapM (hget (fst x)) (c_pts (snd x)) = Ok ps /\ Forall (fun p => p_fmt p = h_fmt h /\ p_reclen p = h_reclen h) ps /\ c_fmt (snd x) = h_fmt h /\ c_reclen (snd x) = h_reclen h.
Definition extends (hp : ModelPoints.heap) (x : ModelPoints.heap * points) : Prop := exists more, fst x = hp ++ more.
Lemma unpack_held hp d : records d -> exists x, unpack_with hp d h = Ok x /\ held x /\ extends hp x.
Proof.
  intros (F & WB & n & L & N). pose proof (SR F) as RL. destruct (unpack_decodes h hp d F ltac:(lia) WB n L N) as (ps & _ & E & FP). eexists. split; [exact E|]. split; [|now exists ps].
  exists ps. cbn [fst snd c_pts c_fmt c_reclen]. split; [apply hget_fresh|]. auto.
Qed.
Lemma fine_points hp n r : winv r -> e_count (n_entry n) <= INT32_MAX -> fine (fun x => held x /\ extends hp x) r (get_points_node cd hp n r).
Proof.
  intros W C. split; [apply flags_points|]. destruct (fine_data n r W C) as ((b & FL) & U & D). unfold get_points_node. destruct (get_point_data_node cd n r) as (r1, [d| |]); cbn [fst snd] in *; [|split; discriminate|congruence].
  subst r1. cbn [with_fail r_cfg]. rewrite (wi_cfg r W). destruct (unpack_held hp d (D d eq_refl)) as (x & -> & X). split; [discriminate|]. intros a A. injection A as <-. exact X.
Qed.
Lemma safe_data fuel k r m : winv r -> (m <= length (r_pages r))%nat -> safe (fun d => d = [] \/ records d) m (get_point_data cd fuel k r).
Proof.
  intros W L. unfold get_point_data, by_key. destruct (key_valid k); cbn [negb]; [|apply safe_ok; auto]. eapply safe_then; [now apply safe_find|]. intros n r1 W1 L1 F.
  destruct (node_valid n) eqn:V; cbn [negb]; [|apply safe_ok; auto]. destruct (F V) as (_ & C). intros r2 o E. destruct (fine_safe _ _ _ m W1 L1 (fine_data n r1 W1 C) r2 o E) as (A1 & A2 & A3 & A4). split; [exact A1|]. split; [exact A2|]. split; [exact A3|]. intros a Q. right. exact (A4 a Q).
Qed.
Lemma safe_compressed fuel k r m : winv r -> (m <= length (r_pages r))%nat -> safe (fun _ => True) m (get_compressed fuel k r).
Proof.
  intros W L. unfold get_compressed, by_key. destruct (key_valid k); cbn [negb]; [|apply safe_ok; auto]. eapply safe_then; [now apply safe_find|]. intros n r1 W1 L1 F.
  destruct (node_valid n) eqn:V; cbn [negb]; [|apply safe_ok; auto]. apply (fine_safe _ _ _ m W1 L1 (fine_compressed n r1)).
Qed.
Lemma empty_held : empty_points h <> UB /\ forall x, empty_points h = Ok x -> forall hp, held (hp, x).
Proof.
  unfold empty_points. destruct (Z.eq_dec (Z.max 6 (Z.min (h_fmt h) 8)) (h_fmt h)) as [FM|FM].
  - assert (F : 6 <= h_fmt h <= 8) by lia. pose proof (SR F) as RL. pose proof (las_base_range (h_fmt h)). fold (empty_points h). rewrite empty_points_ok by (split; lia). split; [discriminate|]. intros x E hp. injection E as <-.
    exists []. cbn [fst snd c_pts c_fmt c_reclen mapM]. auto.
  - unfold h_eb_size, eb_byte_size, base_size. destruct (Z.eqb_spec (h_fmt h) 6); [lia|]. destruct (Z.eqb_spec (h_fmt h) 7); [lia|]. destruct (Z.eqb_spec (h_fmt h) 8); [lia|]. cbn [bind]. split; discriminate.
Qed.
Lemma safe_points fuel k r m : winv r -> (m <= length (r_pages r))%nat -> safe (fun _ => True) m (get_points cd fuel [] k r).
Proof.
  intros W L. unfold get_points. eapply safe_then; [now apply safe_data|]. intros d r1 W1 L1 D. rewrite (wi_cfg r1 W1). destruct d as [|z d].
  - destruct empty_held as (E & _). destruct (empty_points h); cbn [bind]; [apply safe_ok; auto|apply safe_throw; auto|congruence].
  - destruct D as [D|D]; [discriminate|]. destruct (unpack_held [] (z :: d) D) as (x & -> & _). apply safe_ok; auto.
Qed.
Lemma held_more hp more x : held (hp, x) -> held (hp ++ more, x).
Proof. intros (ps & A & B). exists ps. cbn [fst snd] in *. split; [now apply hget_more|exact B]. Qed.
Lemma held_join hp a l ps : held (hp, a) -> mapM (hget hp) l = Ok ps -> Forall (fun p => p_fmt p = h_fmt h /\ p_reclen p = h_reclen h) ps -> held (hp, mkPoints (c_fmt a) (c_reclen a) (c_pts a ++ l)).
Proof.
  intros (qs & A & B & C & D) E F. cbn [fst snd] in *. exists (qs ++ ps). cbn [fst snd c_pts c_fmt c_reclen]. split; [now apply mapM_app|]. split; [now apply Forall_app|]. auto.
Qed.
Lemma fine_add_all n hp out r : winv r -> e_count (n_entry n) <= INT32_MAX -> held (hp, out) -> fine held r (add_all_of cd n hp out r).
Proof.
  intros W C H. split; [apply flags_add_all|]. unfold add_all_of. destruct (fine_points hp n r W C) as (_ & U & D). destruct (get_points_node cd hp n r) as (r1, [(hp1, x)| |]); cbn [fst snd] in *; [|split; discriminate|congruence].
  destruct (D _ eq_refl) as ((ps & P1 & P2 & P3 & P4) & (more & E)). cbn [fst snd] in *. subst hp1. apply (held_more _ more) in H. unfold add_points. rewrite P3, P4. destruct H as (qs & Q1 & Q2 & Q3 & Q4). cbn [fst snd] in *. rewrite Q3, Q4, !Z.eqb_refl. cbn [negb orb bind].
  split; [discriminate|]. intros a A. injection A as <-. rewrite <- Q3, <- Q4. apply (held_join _ _ _ ps); auto. exists qs. auto.
Qed.
Lemma fine_add_some b n hp out r : winv r -> e_count (n_entry n) <= INT32_MAX -> held (hp, out) -> fine held r (add_some_of cd b n hp out r).
Proof.
  intros W C H. split; [apply flags_add_some|]. unfold add_some_of. destruct (fine_points hp n r W C) as (_ & U & D). destruct (get_points_node cd hp n r) as (r1, [(hp1, x)| |]); cbn [fst snd] in *; [|split; discriminate|congruence].
  destruct (D _ eq_refl) as ((ps & P1 & P2 & P3 & P4) & (more & E)). cbn [fst snd] in *. subst hp1. apply (held_more _ more) in H. destruct (within_points (hp ++ more) b (c_pts x) ps P1) as (l & L1 & L2 & _). rewrite L1. cbn [bind].
  unfold add_points_vec. pose proof (filter_forall _ (fun p => point_within p b) _ P2) as FF. pose proof H as (qs & Q1 & Q2 & Q3 & Q4). cbn [fst snd] in *. rewrite (all_fit_ok (hp ++ more) out l _ L2) by (rewrite Q3, Q4; exact FF). cbn [bind].
  split; [discriminate|]. intros a A. injection A as <-. exact (held_join _ _ _ _ H L2 FF).
Qed.
Lemma fine_from g : (forall n hp out r, winv r -> fnode n -> held (hp, out) -> fine held r (g n hp out r)) -> forall l hp out r, Forall fnode l -> winv r -> held (hp, out) -> fine held r (add_from g l hp out r).
Proof.
  intros G. induction l as [|n l IH]; intros hp out r F W H; cbn [add_from].
  - split; [apply flags_refl|]. cbn [snd]. split; [discriminate|]. intros a A. injection A as <-. exact H.
  - inversion_clear F as [|? ? Fn Fl]. destruct (G n hp out r W Fn H) as ((b & FL) & U & D). destruct (g n hp out r) as (r1, [(hp1, out1)| |]); cbn [fst snd] in *.
    + subst r1. destruct (IH hp1 out1 (with_fail b r) Fl (winv_fail b r W) (D _ eq_refl)) as (I1 & I2). split; [|exact I2]. eapply flags_trans; [apply flags_fail|exact I1].
    + split; [now exists b|]. cbn [snd]. split; discriminate.
    + congruence.
Qed.
Lemma fine_none (hp : ModelPoints.heap) (out : points) r : held (hp, out) -> fine held r (r, Ok (hp, out)).
Proof. intros H. split; [apply flags_refl|]. cbn [snd]. split; [discriminate|]. intros a A. injection A as <-. exact H. Qed.
Lemma safe_all_points fuel res r m : winv r -> (m <= length (r_pages r))%nat -> safe (fun _ => True) m (get_all_points cd fuel od [] res r).
Proof.
  intros W L. unfold get_all_points. rewrite (wi_cfg r W). destruct empty_held as (E & EH). destruct (empty_points h) as [out| |]; [|apply safe_throw; auto|congruence]. specialize (EH out eq_refl []).
  eapply safe_then; [now apply safe_depth|]. intros d r1 W1 L1 _. eapply safe_then; [now apply safe_all|]. intros l r2 W2 L2 F. intros r3 o Q.
  destruct (fine_safe held r2 _ m W2 L2 (fine_from (fun n hp out r => if kd (n_key n) <=? d then add_all_of cd n hp out r else (r, Ok (hp, out)))
    ltac:(intros n hp o1 r4 W4 (_ & C) H4; destruct (kd (n_key n) <=? d); [now apply fine_add_all|now apply fine_none]) l [] out r2 F W2 EH) r3 o Q) as (A1 & A2 & A3 & _). auto.
Qed.
Lemma safe_box_points b fuel res r m : winv r -> (m <= length (r_pages r))%nat -> safe (fun _ => True) m (get_points_within_box cd b fuel od [] res r).
Proof.
  intros W L. unfold get_points_within_box. eapply safe_then; [now apply safe_depth|]. intros d r1 W1 L1 _. rewrite (wi_cfg r1 W1). destruct empty_held as (E & EH). destruct (empty_points h) as [out| |]; [|apply safe_throw; auto|congruence]. specialize (EH out eq_refl []).
  eapply safe_then; [now apply safe_all|]. intros l r2 W2 L2 F. intros r3 o Q. cbv zeta in Q.
  destruct (fine_safe held r2 _ m W2 L2 (fine_from (fun n hp out r => if kd (n_key n) <=? d then if key_within (n_key n) (h_min (c_hdr (r_cfg r2))) (h_max (c_hdr (r_cfg r2))) b then add_all_of cd n hp out r
      else if key_intersects (n_key n) (h_min (c_hdr (r_cfg r2))) (h_max (c_hdr (r_cfg r2))) b then add_some_of cd b n hp out r else (r, Ok (hp, out)) else (r, Ok (hp, out)))
    ltac:(intros n hp o1 r4 W4 (_ & C) H4; destruct (kd (n_key n) <=? d); [|now apply fine_none]; destruct (key_within _ _ _ _); [now apply fine_add_all|]; destruct (key_intersects _ _ _ _); [now apply fine_add_some|now apply fine_none]) l [] out r2 F W2 EH) r3 o Q) as (A1 & A2 & A3 & _). auto.
Qed.
Lemma bounds_defined a b : header_bounds a b <> UB.
Proof. unfold header_bounds, box_of_vecs, box3. destruct (_ || _); discriminate. Qed.
Lemma fine_validate : forall l t1 t2 v r, Forall fnode l -> winv r -> fine (fun _ => True) r (validate_nodes cd false l t1 t2 v r).
Proof.
  induction l as [|n l IH]; intros t1 t2 v r F W; (split; [apply flags_validate|]); cbn [validate_nodes]; [cbn [snd]; split; [discriminate|auto]|]. inversion_clear F as [|? ? (_ & C) Fl].
  pose proof (bounds_defined (h_min (c_hdr (r_cfg r))) (h_max (c_hdr (r_cfg r)))) as HB. destruct (header_bounds _ _) as [hb| |]; [|cbn [snd]; split; discriminate|congruence].
  destruct (box_intersects _ _); cbn [negb]; [|cbn [snd]; split; [discriminate|auto]]. destruct (fine_points [] n r W C) as ((b & FL) & U & D). destruct (get_points_node cd [] n r) as (r1, [(hp1, x)| |]); cbn [fst snd] in *; [|split; discriminate|congruence].
  subst r1. destruct (D _ eq_refl) as ((ps & P1 & _) & _). cbn [fst snd] in P1. rewrite P1. cbn [bind]. rewrite !check_quiet.
  set (x1 := if box_within _ _ then _ else _). assert (X1 : exists y, x1 = Ok y) by (unfold x1; destruct (box_within _ _); eauto). destruct X1 as (y & ->). cbn [bind]. destruct y as [(t1', v1)|]; [|cbn [snd]; split; [discriminate|auto]].
  destruct (forallb _ _); cbn [snd]; [|split; [discriminate|auto]]. exact (proj2 (IH t1' t2 _ (with_fail b r) Fl (winv_fail b r W))).
Qed.
Lemma safe_validate fuel r m : winv r -> (m <= length (r_pages r))%nat -> safe (fun _ => True) m (validate_spatial_bounds cd fuel od false r).
Proof.
  intros W L. unfold validate_spatial_bounds. eapply safe_then; [now apply safe_all|]. intros l r1 W1 L1 F. apply (fine_safe _ r1); auto. now apply fine_validate.
Qed.
Lemma safe_wrap {A} (Q : A -> Prop) (g : A -> answer) m x : safe Q m x -> forall r a, wrap g x = Some (r, a) -> a <> UB.
Proof. intros S r a E. destruct x as [(r1, [y| |])|]; cbn [wrap] in E; try discriminate; injection E as <- <-; [discriminate..|]. destruct (S _ _ eq_refl) as (_ & _ & U & _). congruence. Qed.
Lemma answers_defined fuel q r r' a : winv r -> int_count q -> q <> QValidate true -> answer_to cd od fuel q r = Some (r', a) -> a <> UB.
Proof.
  intros W I NV E. pose proof (Nat.le_0_l (length (r_pages r))) as L. destruct q; cbn [answer_to int_count] in *.
  - exact (safe_wrap _ _ _ _ (safe_find k 0 fuel r W L) _ _ E).
  - exact (safe_wrap _ _ _ _ (safe_points fuel k r 0 W L) _ _ E).
  - exact (safe_wrap _ _ _ _ (fine_safe _ r _ 0 W L (fine_points [] n r W I)) _ _ E).
  - exact (safe_wrap _ _ _ _ (safe_data fuel k r 0 W L) _ _ E).
  - exact (safe_wrap _ _ _ _ (fine_safe _ r _ 0 W L (fine_data n r W I)) _ _ E).
  - exact (safe_wrap _ _ _ _ (safe_compressed fuel k r 0 W L) _ _ E).
  - exact (safe_wrap _ _ _ _ (fine_safe _ r _ 0 W L (fine_compressed n r)) _ _ E).
  - exact (safe_wrap _ _ _ _ (safe_children fuel k r 0 W L) _ _ E).
  - exact (safe_wrap _ _ _ _ (safe_all fuel r 0 W L) _ _ E).
  - exact (safe_wrap _ _ _ _ (safe_pages fuel r 0 W L) _ _ E).
  - exact (safe_wrap _ _ _ _ (safe_all_points fuel res r 0 W L) _ _ E).
  - exact (safe_wrap _ _ _ _ (safe_depth fuel res r 0 W L) _ _ E).
  - exact (safe_wrap _ _ _ _ (safe_select _ fuel res r 0 W L) _ _ E).
  - exact (safe_wrap _ _ _ _ (safe_select _ fuel res r 0 W L) _ _ E).
  - exact (safe_wrap _ _ _ _ (safe_select _ fuel res r 0 W L) _ _ E).
  - exact (safe_wrap _ _ _ _ (safe_select _ fuel res r 0 W L) _ _ E).
  - exact (safe_wrap _ _ _ _ (safe_box_points b fuel res r 0 W L) _ _ E).
  - destruct verbose; [congruence|]. exact (safe_wrap _ _ _ _ (safe_validate fuel r 0 W L) _ _ E).
Qed.
Lemma asks_winv fuel qs r r' : winv r -> ask_all cd od fuel qs r = Some r' -> winv r'.
Proof.
  intros W E. refine (proj1 (kept_asks winv (fun _ _ => True) (fun _ => I) (fun _ _ _ _ _ => I) winv_fail (fun _ _ => I) _ cd od fuel qs r r' W E)).
  intros r1 i p r2 o W1 P L Q. destruct (parse_winv r1 i p r2 o W1 P L Q). auto.
Qed.
End U.

(* a Reader that was just opened *)
Lemma opened_winv isfile f r : wf_bytes f -> open_reader isfile f = Ok r -> winv f (copc_root_offset f) (root_page_size f) (r_cfg r) r.
Proof.
  intros WF E. assert (RO : 0 <= copc_root_offset f < 2 ^ 64) by (apply (ProofOpen3.num_range 469 8); [exact WF|lia]). unfold root_page_size.
  unfold open_reader in E. apply bind_ok in E as (b & _ & E). destruct (_ || _); [discriminate|]. apply bind_ok in E as (i & I & E). apply bind_ok in E as (x & _ & E). apply bind_ok in E as (c & _ & E).
  injection E as <-. constructor; cbn [r_data r_cfg r_pages r_seen r_nodes]; auto.
  - repeat constructor. cbn [new_rpage rp_off rp_size].
    unfold read_info in I. destruct (_ =? 0); [discriminate|]. destruct (Z.eqb_spec (fetch_vlr (br_vlrs b) s_copc 1) INFO_VLR_OFFSET) as [->|]; cbn [negb] in I; [|discriminate].
    change (Z.to_nat (INFO_VLR_OFFSET + VLR_HEADER_SIZE)) with 429%nat in I. destruct (dec_info (skipn 429 f)) as [(i', rest)|] eqn:D; [|discriminate]. injection I as <-.
    apply dec_info_root in D as (D1 & D2). rewrite !skipn_add in D1, D2. change (firstn 8 (skipn (429 + 40) f)) with (bytes_at 469 8 f) in D1. change (firstn 8 (skipn (429 + 48) f)) with (bytes_at 477 8 f) in D2.
    fold (num_at 469 8 f) in D1. fold (num_at 477 8 f) in D2. fold (copc_root_offset f) in D1. fold (copc_root_size f) in D2. rewrite D1, D2.
    replace (to_u 64 (to_s 64 (copc_root_offset f))) with (copc_root_offset f); [apply page_root|]. unfold to_u. rewrite BaseFacts.to_s_mod by lia. symmetry. apply Z.mod_small. lia.
Qed.
