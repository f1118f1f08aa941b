(* ProofReader4.v - loading whole subtrees: GetAllChildrenOfPage, GetAllNodes, GetPageList *)
From Coq Require Import Permutation.
From Verif Require Import Base BaseFacts ModelFloat ModelKey ModelGeom ModelEntry ModelPoint ModelPoints ModelHeader ModelVlr ModelExtents ModelConfig
  ModelStream ModelWriter ModelReader SpecKey SpecPoint SpecWriter SpecHier SpecReader ProofKey ProofPoint ProofStream ProofTree ProofPages ProofHier
  ProofReader ProofReader2 ProofReader3.

(* the call's result does not depend on the bound *)
Lemma find_mono k : forall fuel fuel' r x, (fuel <= fuel')%nat -> find_node fuel k r = Some x -> find_node fuel' k r = Some x.
Proof.
  induction fuel as [|fuel IH]; intros [|fuel'] r x L E; try discriminate; try lia. cbn [find_node] in *. destruct (mget k (r_nodes r)); [exact E|].
  destruct (nearest_seen _ _) as [i|]; [|exact E]. destruct (nth_error (r_pages r) i) as [p|]; [|exact E]. destruct (rp_loaded p); [exact E|].
  destruct (read_and_parse i r) as (r1, [[]| |]); cbn [and_then] in *; try exact E. apply IH; auto. lia.
Qed.
Lemma each_mono {A B} (g g' : A -> reader -> call (list B)) : (forall a r x, g a r = Some x -> g' a r = Some x) -> forall l r x, each_call g l r = Some x -> each_call g' l r = Some x.
Proof.
  intros H. induction l as [|a l IH]; intros r x E; cbn [each_call] in *; [exact E|].
  destruct (g a r) as [(r1, [y| |])|] eqn:G; [| | |discriminate]; rewrite (H _ _ _ G); cbn [and_then] in *; try exact E.
  destruct (each_call g l r1) as [(r2, [z| |])|] eqn:G2; [| | |discriminate]; rewrite (IH _ _ G2); exact E.
Qed.
Lemma load_mono od : forall fuel fuel' i r x, (fuel <= fuel')%nat -> load_pages fuel od i r = Some x -> load_pages fuel' od i r = Some x.
Proof.
  induction fuel as [|fuel IH]; intros [|fuel'] i r x L E; try discriminate; try lia. cbn [load_pages] in *. destruct (nth_error (r_pages r) i) as [p|]; [|exact E].
  destruct (rpage_valid p); cbn [negb] in *; [|exact E]. set (y := if rp_loaded p then _ else _) in *. destruct y as [(r1, [u| |])|]; cbn [and_then] in *; try exact E.
  destruct (nth_error (r_pages r1) i) as [p1|]; [|exact E].
  destruct (each_call (load_pages fuel od) _ r1) as [z|] eqn:Z; [|discriminate]. rewrite (each_mono (load_pages fuel od) (load_pages fuel' od)) with (x := z); auto. intros a r0 x0. apply IH. lia.
Qed.
Lemma children_mono od k fuel fuel' r x : (fuel <= fuel')%nat -> get_all_children_of_page fuel od k r = Some x -> get_all_children_of_page fuel' od k r = Some x.
Proof.
  intros L E. unfold get_all_children_of_page in *. destruct (key_valid k); cbn [negb] in *; [|exact E].
  destruct (find_node fuel k r) as [(r1, [n| |])|] eqn:FN; [| | |discriminate]; rewrite (find_mono k _ _ _ _ L FN); cbn [and_then] in *; try exact E.
  destruct (mget k (r_seen r1)); [|exact E]. eapply load_mono; eauto.
Qed.

(* enough recursion for every page and key *)
Definition depth_bound (hs : list page_info) (k : key) : nat := (Z.to_nat (kd k) + fold_right (fun h m => Nat.max (Z.to_nat (kd (pi_key h))) m) 0 hs + 3)%nat.
Lemma depth_bound_page hs k h : In h hs -> kd (pi_key h) < Z.of_nat (depth_bound hs k).
Proof.
  intros A. unfold depth_bound. assert (H : (Z.to_nat (kd (pi_key h)) <= fold_right (fun h m => Nat.max (Z.to_nat (kd (pi_key h))) m) 0 hs)%nat).
  { revert A. induction hs as [|x l IHl]; [intros []|]. cbn [fold_right In]. intros [->|A]; [lia|]. specialize (IHl A). lia. }
  lia.
Qed.
Section Tree.
Variable f : bytes.
Variables off size : Z.
Variable hs : list page_info.
Hypothesis T : page_tree f off size hs.
Hypothesis FL : Z.of_nat (length f) < 2 ^ 63.
Notation rinv := (rinv f hs).

Lemma below_split h : In h hs -> intact h = true -> forall j, In j hs -> child_of (pi_key j) (pi_key h) = true ->
  j = h \/ exists e, In e (subs_of_ents (pi_ents h)) /\ child_of (pi_key j) (e_key e) = true.
Proof.
  intros A IH0 j. remember (Z.to_nat (kd (pi_key j))) as n eqn:En. revert j En. induction n as [n IH] using lt_wf_ind. intros j En J C.
  destruct (key_eqb_spec (pi_key j) root_key) as [E|N].
  - left. apply (page_unique f off size hs T); auto. rewrite E in *. symmetry. now apply (child_of_root_only f off size hs T).
  - destruct (parent_of f off size hs T j J N) as (g & e & G1 & G2 & G3 & G4 & G5 & G6 & G7 & G8). destruct (G8 h A C) as [->|C']; [now left|]. right.
    pose proof (page_valid_key f off size hs T g G1) as (V & _).
    destruct (IH (Z.to_nat (kd (pi_key g))) ltac:(lia) g eq_refl G1 C') as [->|(e' & E1 & E2)].
    + exists e. split; [apply filter_In; auto|]. rewrite G5. apply child_of_refl. now apply (page_valid_key f off size hs T).
    + exists e'. split; [exact E1|]. eapply child_of_trans; eauto.
Qed.
Lemma subs_disjoint h e e' x : In h hs -> intact h = true -> In e (subs_of_ents (pi_ents h)) -> In e' (subs_of_ents (pi_ents h)) ->
  child_of x (e_key e) = true -> child_of x (e_key e') = true -> e_key e = e_key e'.
Proof.
  intros A I E E' C C'. apply filter_In in E. apply filter_In in E'. destruct E as (E & S), E' as (E' & S').
  assert (H : forall a b, In a (pi_ents h) -> is_sub a = true -> In b (pi_ents h) -> is_sub b = true -> child_of (e_key a) (e_key b) = true -> e_key b = e_key a).
  { intros a b Ia Sa Ib Sb Cab. destruct (pt_sub _ _ _ _ T h a A I Ia Sa) as (_ & _ & _ & _ & _ & _ & NC).
    destruct (pt_sub _ _ _ _ T h b A I Ib Sb) as (_ & jb & B1 & B2 & _). specialize (NC jb B1). rewrite B2 in NC. destruct (NC Cab) as [X|X]; [exact X|].
    pose proof (sub_deeper f off size hs T h b A I Ib Sb). lia. }
  destruct (Z.le_ge_cases (kd (e_key e)) (kd (e_key e'))) as [D|D].
  - pose proof (child_of_chain _ _ _ C' C ltac:(lia)) as X. exact (H e' e E' S' E S X).
  - pose proof (child_of_chain _ _ _ C C' ltac:(lia)) as X. symmetry. exact (H e e' E S E' S' X).
Qed.
Lemma sub_page h e : In h hs -> intact h = true -> In e (subs_of_ents (pi_ents h)) -> exists j, In j hs /\ pi_key j = e_key e /\ kd (pi_key h) < kd (pi_key j) /\ child_of (pi_key j) (pi_key h) = true.
Proof.
  intros A I E. apply filter_In in E. destruct E as (E & S). destruct (pt_sub _ _ _ _ T h e A I E S) as (_ & j & J1 & J2 & _). exists j. rewrite J2. repeat split; auto.
  - exact (sub_deeper f off size hs T h e A I E S).
  - exact (pt_inside _ _ _ _ T h e A I E).
Qed.

Lemma id_grows r r' i k : grows r r' -> id_key r i = Some k -> id_key r' i = Some k.
Proof.
  intros (_ & _ & G). unfold id_key. destruct (nth_error (r_pages r) i) as [p|] eqn:P; [|discriminate]. intros E. destruct (G i p P) as (p' & -> & K & _). cbn in *. congruence.
Qed.
Lemma loaded_grows r r' k : grows r r' -> is_loaded r k -> is_loaded r' k.
Proof. intros (_ & _ & G) (i & p & P & K & L). destruct (G i p P) as (p' & P' & K' & E). exists i, p'. rewrite (E L) in *. auto. Qed.
Lemma seen_grows r r' k : grows r r' -> is_seen r k -> is_seen r' k.
Proof. intros (_ & _ & G) (i & p & P & K). destruct (G i p P) as (p' & P' & K' & E). exists i, p'. split; [auto|congruence]. Qed.

Lemma exactly_app l1 l2 (P1 P2 : node -> Prop) : exactly l1 P1 -> exactly l2 P2 -> (forall a b, P1 a -> P2 b -> n_key a <> n_key b) -> exactly (l1 ++ l2) (fun n => P1 n \/ P2 n).
Proof.
  intros (N1 & E1) (N2 & E2) D. split.
  - rewrite map_app. apply nodup_app; auto. intros k A B. apply in_map_iff in A. apply in_map_iff in B. destruct A as (a & A1 & A2), B as (b & B1 & B2).
    apply (D a b); [now apply E1|now apply E2|congruence].
  - intros n. rewrite in_app_iff. now rewrite E1, E2.
Qed.
Lemma exactly_ext l (P Q : node -> Prop) : (forall n, P n <-> Q n) -> exactly l P -> exactly l Q.
Proof. intros H (A & B). split; auto. intros n. now rewrite B. Qed.
Lemma exactly_perm l l' (P : node -> Prop) : Permutation l l' -> exactly l P -> exactly l' P.
Proof.
  intros H (A & B). split; [eapply Permutation_NoDup; [apply Permutation_map; exact H|exact A]|]. intros n. rewrite <- B. split; [apply Permutation_in, Permutation_sym, H|apply Permutation_in, H].
Qed.

(* two nodes with one key are in one page *)
Lemma below_same_key a b n m : nodes_below hs a n -> nodes_below hs b m -> n_key n = n_key m -> (forall j, In j hs -> child_of (pi_key j) a = true -> intact j = true) ->
  (forall j, In j hs -> child_of (pi_key j) b = true -> intact j = true) -> exists j, In j hs /\ child_of (pi_key j) a = true /\ child_of (pi_key j) b = true.
Proof.
  intros (i & e & A1 & A2 & A3 & A4 & ->) (j & e' & B1 & B2 & B3 & B4 & ->) E Ha Hb. unfold n_key in E. cbn [n_entry] in E.
  destruct (nodes_same_page f off size hs T i j e e' A1 B1 (Ha i A1 A2) (Hb j B1 B2) A3 B3 A4 B4 E) as (-> & _). exists j. auto.
Qed.

Definition load_result (h : page_info) (r : reader) (r' : reader) (o : outcome (list node)) : Prop :=
  rinv r' /\ r_fail r' = false /\ grows r r' /\
  ((o = Throw /\ exists j, In j hs /\ child_of (pi_key j) (pi_key h) = true /\ intact j = false) \/
   (exists l, o = Ok l /\ exactly l (nodes_below hs (pi_key h)) /\ forall j, In j hs -> child_of (pi_key j) (pi_key h) = true -> is_loaded r' (pi_key j))).

Lemma each_spec od fuel (IH : forall h r i p, In h hs -> nth_error (r_pages r) i = Some p -> rp_key p = pi_key h -> rinv r -> r_fail r = false ->
    (forall j, In j hs -> child_of (pi_key j) (pi_key h) = true -> kd (pi_key j) - kd (pi_key h) < Z.of_nat fuel) ->
    exists r' o, load_pages fuel od i r = Some (r', o) /\ load_result h r r' o) :
  forall ids r, rinv r -> r_fail r = false -> NoDup ids ->
    (forall i, In i ids -> exists h, In h hs /\ id_key r i = Some (pi_key h) /\ (forall j, In j hs -> child_of (pi_key j) (pi_key h) = true -> kd (pi_key j) - kd (pi_key h) < Z.of_nat fuel)) ->
    (forall i i' k k' x, In i ids -> In i' ids -> id_key r i = Some k -> id_key r i' = Some k' -> child_of x k = true -> child_of x k' = true -> i = i') ->
  exists r' o, each_call (load_pages fuel od) ids r = Some (r', o) /\ rinv r' /\ r_fail r' = false /\ grows r r' /\
    ((o = Throw /\ exists i k j, In i ids /\ id_key r i = Some k /\ In j hs /\ child_of (pi_key j) k = true /\ intact j = false) \/
     (exists l, o = Ok l /\ exactly l (fun n => exists i k, In i ids /\ id_key r i = Some k /\ nodes_below hs k n) /\
       forall i k j, In i ids -> id_key r i = Some k -> In j hs -> child_of (pi_key j) k = true -> is_loaded r' (pi_key j))).
Proof.
  induction ids as [|i ids IHl]; intros r R F ND HP HD; cbn [each_call].
  - exists r, (Ok []). split; [reflexivity|]. split; [exact R|]. split; [exact F|]. split; [apply grows_refl|]. right. exists []. split; [reflexivity|]. split; [|intros ? ? ? []].
    split; [constructor|]. intros n. split; [intros []|]. intros (? & ? & [] & _).
  - inversion ND as [|? ? N1 N2]; subst. destruct (HP i (or_introl eq_refl)) as (h & H1 & H2 & H3).
    assert (H2' := H2). unfold id_key in H2'. destruct (nth_error (r_pages r) i) as [p|] eqn:P; [|discriminate]. cbn in H2'. injection H2' as H2'.
    destruct (IH h r i p H1 P H2' R F H3) as (r1 & o1 & E1 & R1 & F1 & G1 & C1). rewrite E1. cbn [and_then]. destruct C1 as [(-> & j & J1 & J2 & J3)|(l1 & -> & X1 & LD1)].
    + exists r1, Throw. split; [reflexivity|]. split; [exact R1|]. split; [exact F1|]. split; [exact G1|]. left. split; [reflexivity|]. exists i, (pi_key h), j. repeat split; auto. now left.
    + cbn [and_then].
      assert (HP' : forall i', In i' ids -> exists h', In h' hs /\ id_key r i' = Some (pi_key h') /\ (forall j, In j hs -> child_of (pi_key j) (pi_key h') = true -> kd (pi_key j) - kd (pi_key h') < Z.of_nat fuel)).
      { intros i' I'. apply HP. now right. }
      assert (IDS : forall i' k, In i' ids -> id_key r1 i' = Some k <-> id_key r i' = Some k).
      { intros i' k I'. destruct (HP' i' I') as (h' & _ & Q & _). pose proof (id_grows _ _ _ _ G1 Q). split; congruence. }
      destruct (IHl r1 R1 F1 N2) as (r2 & o2 & E2 & R2 & F2 & G2 & C2).
      { intros i' I'. destruct (HP' i' I') as (h' & A1 & A2 & A3). exists h'. split; [exact A1|]. split; [eapply id_grows; eauto|exact A3]. }
      { intros a b k k' x A B Ka Kb Ca Cb. apply (HD a b k k' x); auto; [now right|now right|apply IDS; auto|apply IDS; auto]. }
      rewrite E2. cbn [and_then]. destruct C2 as [(-> & i' & k & j & I' & K' & J1 & J2 & J3)|(l2 & -> & X2 & LD2)].
      * exists r2, Throw. split; [reflexivity|]. split; [exact R2|]. split; [exact F2|]. split; [eapply grows_trans; eauto|]. left. split; [reflexivity|].
        exists i', k, j. split; [now right|]. split; [apply IDS; auto|auto].
      * exists r2, (Ok (l1 ++ l2)). split; [reflexivity|]. split; [exact R2|]. split; [exact F2|]. split; [eapply grows_trans; eauto|]. right. exists (l1 ++ l2). split; [reflexivity|].
        assert (LI : forall j, In j hs -> is_loaded r2 (pi_key j) -> intact j = true) by (intros j J Lj; exact (loaded_intact f off size hs T r2 j R2 J Lj)).
        split.
        -- eapply exactly_ext; [|eapply exactly_app; [exact X1|exact X2|]].
           ++ intros n. split.
              ** intros [B|(i' & k & I' & K' & B)]; [exists i, (pi_key h); split; [now left|auto]|]. exists i', k. split; [now right|]. split; [apply IDS; auto|auto].
              ** intros (i' & k & [<-|I'] & K' & B); [left|right]; [assert (k = pi_key h) as -> by congruence; exact B|]. exists i', k. split; [exact I'|]. split; [apply IDS; auto|auto].
           ++ intros a b Pa (i' & k & I' & K' & Pb) E. apply N1.
              destruct (below_same_key _ _ _ _ Pa Pb E) as (j & J1 & J2 & J3).
              { intros j J C. apply LI; auto. eapply loaded_grows; eauto. }
              { intros j J C. apply LI; auto. exact (LD2 i' k j I' K' J C). }
              rewrite (HD i i' (pi_key h) k (pi_key j)); auto; [now left|now right|apply IDS; auto].
        -- intros i' k j [<-|I'] K' J C.
           ++ assert (k = pi_key h) as -> by congruence. eapply loaded_grows; [exact G2|]. now apply LD1.
           ++ apply (LD2 i' k j); auto. now apply IDS.
Qed.

Lemma nodup_ids r (ids : list nat) ks : map (id_key r) ids = map Some ks -> NoDup ks -> NoDup ids.
Proof.
  intros E N. apply (NoDup_map_inv (id_key r)). rewrite E. apply FinFun.Injective_map_NoDup; auto. intros a b X. congruence.
Qed.
Lemma load_spec od : visits_all od -> forall fuel h r i p, In h hs -> nth_error (r_pages r) i = Some p -> rp_key p = pi_key h -> rinv r -> r_fail r = false ->
  (forall j, In j hs -> child_of (pi_key j) (pi_key h) = true -> kd (pi_key j) - kd (pi_key h) < Z.of_nat fuel) ->
  exists r' o, load_pages fuel od i r = Some (r', o) /\ load_result h r r' o.
Proof.
  intros (VS & VN & _). induction fuel as [|fuel IH]; intros h r i p A P K R F D.
  { exfalso. specialize (D h A (child_of_refl _ (page_valid_key f off size hs T h A))). lia. }
  cbn [load_pages]. rewrite P. destruct (ri_page _ _ _ R i p P) as (_ & h0 & H1 & H2 & H3 & H4 & H5).
  assert (h0 = h) as -> by (apply (page_unique f off size hs T); auto; congruence). clear H1 H2.
  assert (V : rpage_valid p = true).
  { destruct (pt_page _ _ _ _ T h A) as (B1 & B2 & _). unfold rpage_valid. rewrite <- H3, <- H4, K.
    apply andb_true_intro. split; [|apply key_valid_spec, (page_valid_key f off size hs T), A]. apply orb_true_iff. right. apply andb_true_intro; split; apply Z.leb_le; lia. }
  rewrite V. cbn [negb].
  match goal with |- context [and_then ?x _] => assert (LOAD : exists r1 o1, x = Some (r1, o1) /\ rinv r1 /\ r_fail r1 = false /\ grows r r1 /\
    ((o1 = Throw /\ intact h = false) \/ (o1 = Ok tt /\ is_loaded r1 (pi_key h)))) end.
  { destruct (rp_loaded p) eqn:L.
    - exists r, (Ok tt). split; [reflexivity|]. split; [exact R|]. split; [exact F|]. split; [apply grows_refl|]. right. split; [reflexivity|]. exists i, p. auto.
    - destruct (parse_spec f off size hs T FL r i p h R F P L A (eq_sym K)) as [(I & E)|(I & r1 & E & R1 & F1 & G1 & LD)]; rewrite E.
      + exists r, Throw. split; [reflexivity|]. split; [exact R|]. split; [exact F|]. split; [apply grows_refl|]. auto.
      + exists r1, (Ok tt). split; [reflexivity|]. split; [exact R1|]. split; [exact F1|]. split; [exact G1|]. right. split; [reflexivity|]. apply LD. now right. }
  destruct LOAD as (r1 & o1 & -> & R1 & F1 & G1 & C1). cbn [and_then]. destruct C1 as [(-> & I)|(-> & LD)].
  { exists r1, Throw. split; [reflexivity|]. split; [exact R1|]. split; [exact F1|]. split; [exact G1|]. left. split; [reflexivity|]. exists h. split; [exact A|]. split; [|exact I].
    apply child_of_refl, (page_valid_key f off size hs T), A. }
  pose proof (loaded_intact f off size hs T r1 h R1 A LD) as I.
  destruct (proj2 (proj2 G1) i p P) as (p1 & P1 & K1 & _). rewrite P1.
  assert (L1 : rp_loaded p1 = true) by (apply (loaded_unloaded f hs r1 (pi_key h) i p1 R1); auto; congruence).
  destruct (ri_page _ _ _ R1 i p1 P1) as (_ & h1 & J1 & J2 & _ & _ & J5). rewrite L1 in J5. assert (h1 = h) as -> by (apply (page_unique f off size hs T); auto; congruence).
  destruct J5 as (_ & CS & CN). clear J1 J2.
  assert (IDE : forall x, In x (rp_subs p1) -> exists e, In e (subs_of_ents (pi_ents h)) /\ id_key r1 x = Some (e_key e)).
  { intros x X. assert (Y : In (id_key r1 x) (map (id_key r1) (rp_subs p1))) by now apply in_map. rewrite CS in Y. apply in_map_iff in Y. destruct Y as (e & Y & Z). exists e. auto. }
  set (ids := ro_subs od (rp_key p1) (rp_subs p1)).
  assert (IN : forall x, In x ids <-> In x (rp_subs p1)) by (intros x; split; apply Permutation_in; [apply VS|apply Permutation_sym, VS]).
  assert (NDs : NoDup (rp_subs p1)).
  { eapply nodup_ids; [|exact (page_subs_nodup f off size hs T h A I)]. rewrite CS. now rewrite map_map. }
  destruct (each_spec od fuel IH ids r1 R1 F1) as (r2 & o2 & E2 & R2 & F2 & G2 & C2).
  { eapply Permutation_NoDup; [apply Permutation_sym, VS|exact NDs]. }
  { intros x X. apply IN in X. destruct (IDE x X) as (e & E1 & E2). destruct (sub_page h e A I E1) as (j & Q1 & Q2 & Q3 & Q4). exists j. split; [exact Q1|]. split; [congruence|].
    intros q Q C. specialize (D q Q (child_of_trans _ _ _ C Q4)). lia. }
  { intros x y k k' z X Y Kx Ky Cx Cy. apply IN in X. apply IN in Y. destruct (IDE x X) as (e & E1 & E1'), (IDE y Y) as (e' & E2 & E2').
    assert (EE : e_key e = e_key e') by (apply (subs_disjoint h e e' z); auto; congruence).
    assert (In x (rp_subs p1) /\ In y (rp_subs p1)) by auto.
    destruct (nth_error (r_pages r1) x) as [px|] eqn:Px; [|unfold id_key in Kx; rewrite Px in Kx; discriminate].
    destruct (nth_error (r_pages r1) y) as [py|] eqn:Py; [|unfold id_key in Ky; rewrite Py in Ky; discriminate].
    apply (seen_once f hs r1 x y px py R1 Px Py). unfold id_key in *. rewrite Px in *. rewrite Py in *. cbn in *. congruence. }
  fold ids. rewrite E2. cbn [and_then]. destruct C2 as [(-> & x & k & j & X & Kx & J1 & J2 & J3)|(l2 & -> & X2 & LD2)].
  - exists r2, Throw. split; [reflexivity|]. split; [exact R2|]. split; [exact F2|]. split; [eapply grows_trans; eauto|]. left. split; [reflexivity|]. exists j. split; [exact J1|]. split; [|exact J3].
    apply IN in X. destruct (IDE x X) as (e & E1 & E3). eapply child_of_trans; [exact J2|]. assert (k = e_key e) as -> by congruence.
    destruct (sub_page h e A I E1) as (q & _ & <- & _ & Q). exact Q.
  - set (own := ro_nodes od (rp_key p1) (map snd (rp_nodes p1))).
    exists r2, (Ok (l2 ++ own)). split; [reflexivity|]. split; [exact R2|]. split; [exact F2|]. split; [eapply grows_trans; eauto|]. right. exists (l2 ++ own). split; [reflexivity|].
    assert (LD2' : forall j, In j hs -> child_of (pi_key j) (pi_key h) = true -> is_loaded r2 (pi_key j)).
    { intros j J C. destruct (below_split h A I j J C) as [->|(e & E1 & E3)]; [eapply loaded_grows; eauto|].
      assert (Y : In (Some (e_key e)) (map (id_key r1) (rp_subs p1))) by (rewrite CS; now apply (in_map (fun e => Some (e_key e)))).
      apply in_map_iff in Y. destruct Y as (x & Y1 & Y2). apply IN in Y2. exact (LD2 x (e_key e) j Y2 Y1 J E3). }
    split; [|exact LD2'].
    assert (OWN : exactly own (fun n => exists e, In e (pi_ents h) /\ is_sub e = false /\ n = mkNode e (pi_key h))).
    { apply (exactly_perm (map (fun e => mkNode e (pi_key h)) (nodes_of_ents (pi_ents h)))).
      - eapply Permutation_trans; [|apply Permutation_sym, VN]. rewrite CN, map_rev, map_map. apply Permutation_rev.
      - split.
        + rewrite map_map. exact (page_nodes_nodup f off size hs T h A I).
        + intros n. rewrite in_map_iff. unfold nodes_of_ents. split.
          * intros (e & <- & E). apply filter_In in E. destruct E as (E & S). apply negb_true_iff in S. eauto.
          * intros (e & E & S & ->). exists e. split; [reflexivity|]. apply filter_In. now rewrite S. }
    eapply exactly_ext; [|eapply exactly_app; [exact X2|exact OWN|]].
    + intros n. split.
      * intros [(x & k & X & Kx & j & e & J1 & J2 & J3 & J4 & ->)|(e & E & S & ->)].
        -- apply IN in X. destruct (IDE x X) as (e' & E1 & E3). assert (k = e_key e') as -> by congruence. destruct (sub_page h e' A I E1) as (q & _ & Q & _ & C).
           exists j, e. repeat split; auto. rewrite Q in C. eapply child_of_trans; eauto.
        -- exists h, e. repeat split; auto. apply child_of_refl, (page_valid_key f off size hs T), A.
      * intros (j & e & J1 & J2 & J3 & J4 & ->). destruct (below_split h A I j J1 J2) as [->|(e' & E1 & E3)]; [right; eauto|left].
        assert (Y : In (Some (e_key e')) (map (id_key r1) (rp_subs p1))) by (rewrite CS; now apply (in_map (fun e => Some (e_key e)))).
        apply in_map_iff in Y. destruct Y as (x & Y1 & Y2). apply IN in Y2. exists x, (e_key e'). repeat split; auto. exists j, e. auto.
    + intros a b (x & k & X & Kx & j & e & J1 & J2 & J3 & J4 & ->) (e' & E1 & S & ->) EQ. unfold n_key in EQ. cbn [n_entry] in EQ.
      apply IN in X. destruct (IDE x X) as (e3 & E3 & E4). assert (k = e_key e3) as -> by congruence. destruct (sub_page h e3 A I E3) as (q & Q1 & Q & Q3 & C). rewrite Q in *.
      assert (IJ : intact j = true). { apply (loaded_intact f off size hs T r2 j R2 J1), LD2'; auto. eapply child_of_trans; eauto. }
      destruct (nodes_same_page f off size hs T j h e e' J1 A IJ I J3 E1 J4 S EQ) as (-> & _). pose proof (child_of_depth _ _ J2). lia.
Qed.

(* ---- GetAllChildrenOfPage ---- *)
Lemma find_fuel r k i p : rinv r -> nearest_seen (get_parents true k) (r_seen r) = Some i -> nth_error (r_pages r) i = Some p -> forall fuel, (depth_bound hs k <= fuel)%nat -> kd k - kd (rp_key p) + 2 <= Z.of_nat fuel.
Proof.
  intros R E P fuel L. pose proof (nearest_spec f hs r k R) as N. rewrite E in N. destruct N as (p' & h & P' & H1 & H2 & _). rewrite P in P'. injection P' as <-.
  pose proof (page_valid_key f off size hs T h H1) as (V & _). rewrite H2 in V. unfold depth_bound in L. lia.
Qed.
Lemma find_returns r k fuel : rinv r -> r_fail r = false -> (depth_bound hs k <= fuel)%nat ->
  exists r' o, find_node fuel k r = Some (r', o) /\ rinv r' /\ r_fail r' = false /\ grows r r' /\ found hs k o /\
    (o <> Throw -> mget k (r_nodes r) = None -> forall g, In g hs -> child_of k (pi_key g) = true -> (forall n, ~ stored_node hs k n) -> is_loaded r' (pi_key g)).
Proof.
  intros R F L. apply (find_node_spec f off size hs T FL); auto; [|unfold depth_bound in L; lia]. intros i p E P. eapply find_fuel; eauto.
Qed.
Lemma children_page od h r fuel : visits_all od -> In h hs -> rinv r -> r_fail r = false -> (depth_bound hs (pi_key h) <= fuel)%nat ->
  (is_seen r (pi_key h) \/ forall n, stored_node hs (pi_key h) n -> n_page n = pi_key h \/ exists i e, In i hs /\ pi_key i = n_page n /\ In e (pi_ents i) /\ is_sub e = true /\ e_key e = pi_key h) ->
  exists r' o, get_all_children_of_page fuel od (pi_key h) r = Some (r', o) /\ rinv r' /\ r_fail r' = false /\ grows r r' /\
    ((o = Throw /\ exists j, In j hs /\ (child_of (pi_key j) (pi_key h) = true \/ child_of (pi_key h) (pi_key j) = true) /\ intact j = false) \/
     (exists l, o = Ok l /\ exactly l (nodes_below hs (pi_key h)) /\ forall j, In j hs -> child_of (pi_key j) (pi_key h) = true -> is_loaded r' (pi_key j))).
Proof.
  intros VA A R F L NEAR. unfold get_all_children_of_page. rewrite (proj2 (key_valid_spec _) (page_valid_key f off size hs T h A)). cbn [negb].
  destruct (find_returns r (pi_key h) fuel R F L) as (r1 & o1 & E1 & R1 & F1 & G1 & FO & LD). rewrite E1.
  assert (CR : child_of (pi_key h) (pi_key h) = true) by (apply child_of_refl, (page_valid_key f off size hs T), A).
  assert (OUT : (o1 = Throw /\ blocked hs (pi_key h)) \/ exists n, o1 = Ok n).
  { destruct FO as (FO1 & FO2). destruct o1 as [n| |]; [right; eauto| |].
    - left. split; [reflexivity|].
      assert (NS : forall n, ~ stored_node hs (pi_key h) n) by (intros n X; specialize (FO1 n X); discriminate). destruct (FO2 NS) as (_ & Y).
      destruct (existsb (fun i => negb (intact i) && child_of (pi_key h) (pi_key i)) hs) eqn:EX.
      + apply existsb_exists in EX. destruct EX as (i & I1 & I2). apply andb_prop in I2. destruct I2 as (I2 & I3). apply negb_true_iff in I2. exists i. auto.
      + exfalso. assert (X : @Throw node = Ok invalid_node); [apply Y|discriminate]. intros (i & I1 & I2 & I3). assert (existsb (fun i => negb (intact i) && child_of (pi_key h) (pi_key i)) hs = true); [|congruence].
        apply existsb_exists. exists i. split; auto. now rewrite I2, I3.
    - exfalso.
      assert (NS : forall n, ~ stored_node hs (pi_key h) n) by (intros n X; specialize (FO1 n X); discriminate). destruct (FO2 NS) as (X & Y).
      assert (NB : ~ blocked hs (pi_key h)) by (intros B; specialize (X B); discriminate). specialize (Y NB). discriminate. }
  destruct OUT as [(-> & (j & J1 & J2 & J3))|(n & ->)]; cbn [and_then].
  { exists r1, Throw. split; [reflexivity|]. split; [exact R1|]. split; [exact F1|]. split; [exact G1|]. left. split; [reflexivity|]. exists j. auto. }
  assert (SE : is_seen r1 (pi_key h)).
  { destruct NEAR as [SE|NEAR]; [eapply seen_grows; eauto|].
    destruct (mget (pi_key h) (r_nodes r1)) as [m|] eqn:M.
    - pose proof (have_node f off size hs T r1 _ _ R1 M) as ST. apply (ri_nodes _ _ _ R1) in M. destruct M as (i & p & g & e & P1 & P2 & P3 & P4 & P5 & P6 & P7 & P8).
      assert (LG : is_loaded r1 (pi_key g)) by (exists i, p; rewrite P4; auto).
      destruct (NEAR m ST) as [X|(i' & e' & I1 & I2 & I3 & I4 & I5)].
      + rewrite P8 in X. cbn [n_page] in X. rewrite <- X. destruct LG as (? & ? & ? & ? & _). unfold is_seen. eauto.
      + rewrite P8 in I2. cbn [n_page] in I2. assert (i' = g) as -> by (apply (page_unique f off size hs T); auto). rewrite <- I5. eapply (sub_seen f off size hs T); eauto.
    - assert (NS : forall n, ~ stored_node hs (pi_key h) n).
      { intros m X. pose proof (proj1 FO m X) as Y. injection Y as ->.
        (* FindNode returned a node: it is in the map afterwards *)
        clear -E1 X M T. revert r E1. revert fuel. induction fuel as [|fuel IH]; intros r E1; [discriminate|]. cbn [find_node] in E1.
        destruct (mget (pi_key h) (r_nodes r)) as [m'|] eqn:M'; [injection E1 as -> ->; congruence|].
        assert (NI : m <> invalid_node).
        { intros ->. destruct X as (i & e & A1 & A2 & A3 & A4 & A5 & A6). unfold intact in A2. rewrite forallb_forall in A2. specialize (A2 e A3). injection A6 as <- _. discriminate. }
        destruct (nearest_seen _ _) as [i|]; [|injection E1; congruence]. destruct (nth_error (r_pages r) i) as [p|]; [|injection E1; congruence].
        destruct (rp_loaded p); [injection E1; congruence|]. destruct (read_and_parse i r) as (r2, [[]| |]); cbn [and_then] in E1; try discriminate. eauto. }
      assert (M0 : mget (pi_key h) (r_nodes r) = None).
      { destruct (mget (pi_key h) (r_nodes r)) as [m|] eqn:M0; [|reflexivity]. exfalso. exact (NS m (have_node f off size hs T r _ _ R M0)). }
      destruct (LD ltac:(discriminate) M0 h A CR NS) as (? & ? & ? & ? & _). unfold is_seen. eauto. }
  destruct SE as (i & p & P1 & P2). destruct (ri_page _ _ _ R1 i p P1) as (S & _). rewrite P2 in S. rewrite S.
  destruct (load_spec od VA fuel h r1 i p A P1 P2 R1 F1) as (r2 & o2 & E2 & R2 & F2 & G2 & C2).
  { intros j J C. pose proof (depth_bound_page hs (pi_key h) j J). pose proof (page_valid_key f off size hs T h A) as (V & _). lia. }
  exists r2, o2. split; [exact E2|]. split; [exact R2|]. split; [exact F2|]. split; [eapply grows_trans; eauto|].
  destruct C2 as [(-> & j & J1 & J2 & J3)|X]; [left|right; exact X]. split; [reflexivity|]. exists j. auto.
Qed.
Lemma root_page : exists h, In h hs /\ pi_key h = root_key.
Proof. destruct (pt_root _ _ _ _ T) as (h & A & B & _). eauto. Qed.
Lemma root_seen r : rinv r -> is_seen r root_key.
Proof. intros R. destruct (ri_root _ _ _ R) as (i & I). destruct (ri_seen _ _ _ R _ _ I) as (p & P1 & P2). exists i, p. auto. Qed.
(* GetAllChildrenOfPage of a key without a page *)
Lemma children_no_page od k r fuel : visits_all od -> rinv r -> r_fail r = false -> (depth_bound hs k <= fuel)%nat -> (forall h, In h hs -> pi_key h <> k) ->
  exists r' o, get_all_children_of_page fuel od k r = Some (r', o) /\ rinv r' /\ r_fail r' = false /\ grows r r' /\
    (forall n, stored_node hs k n -> o = Ok [n]) /\ ((forall n, ~ stored_node hs k n) -> ~ blocked hs k -> o = Ok []).
Proof.
  intros VA R F L NP. unfold get_all_children_of_page. destruct (key_valid k) eqn:V; cbn [negb].
  - destruct (find_returns r k fuel R F L) as (r1 & o1 & E1 & R1 & F1 & G1 & FO & LD). rewrite E1.
    assert (SN : mget k (r_seen r1) = None).
    { destruct (mget k (r_seen r1)) as [i|] eqn:S; [|reflexivity]. exfalso. destruct (ri_seen _ _ _ R1 _ _ S) as (p & P1 & P2). destruct (ri_page _ _ _ R1 _ _ P1) as (_ & h & H1 & H2 & _).
      apply (NP h H1). congruence. }
    destruct FO as (FO1 & FO2). destruct o1 as [n| |]; cbn [and_then].
    + rewrite SN. exists r1, (Ok (if node_valid n then [n] else [])). split; [reflexivity|]. split; [exact R1|]. split; [exact F1|]. split; [exact G1|]. split.
      * intros m X. specialize (FO1 m X). injection FO1 as ->. destruct X as (i & e & A1 & A2 & A3 & A4 & A5 & ->). unfold intact in A2. rewrite forallb_forall in A2. unfold node_valid. cbn [n_entry]. now rewrite (A2 e A3).
      * intros NS NB. destruct (FO2 NS) as (_ & X). specialize (X NB). injection X as ->. reflexivity.
    + exists r1, Throw. split; [reflexivity|]. split; [exact R1|]. split; [exact F1|]. split; [exact G1|]. split.
      * intros m X. specialize (FO1 m X). discriminate.
      * intros NS NB. destruct (FO2 NS) as (_ & X). specialize (X NB). discriminate.
    + exists r1, UB. split; [reflexivity|]. split; [exact R1|]. split; [exact F1|]. split; [exact G1|]. split.
      * intros m X. specialize (FO1 m X). discriminate.
      * intros NS NB. destruct (FO2 NS) as (_ & X). specialize (X NB). discriminate.
  - exists r, (Ok []). split; [reflexivity|]. split; [exact R|]. split; [exact F|]. split; [apply grows_refl|]. split; [|auto].
    intros n (i & e & A1 & A2 & A3 & A4 & A5 & ->). exfalso. unfold intact in A2. rewrite forallb_forall in A2. specialize (A2 e A3). unfold entry_valid in A2. rewrite A5, V, andb_false_r in A2. discriminate.
Qed.
End Tree.
