(* ProofWriter3.v - sequences of calls: the pages *)
From Verif Require Import Base BaseFacts ModelFloat ModelKey ModelGeom ModelEntry ModelPoint ModelPoints ModelHeader ModelVlr ModelExtents ModelConfig
  ModelStream ModelWriter SpecKey SpecPoint SpecConfig SpecWriter ProofKey ProofPoint ProofPoints ProofExtents ProofConfig ProofStream
  ProofWriter ProofWriter2.

(* pages hold exactly the nodes of the view *)
Record hinv (v : view) (w : writer) : Prop := {
  hi_loaded : forall k, mget k (w_loaded w) = option_map fst (v k);
  hi_nd : NoDup (map fst (w_pages w));
  hi_root : exists P, mget root_key (w_pages w) = Some P;
  hi_page : forall p P, mget p (w_pages w) = Some P ->
    valid p /\ int32_key p /\ wp_subs P = [] /\ NoDup (map fst (wp_nodes P)) /\
    (forall k n, mget k (wp_nodes P) = Some n <-> v k = Some (n, p)) /\
    (p <> root_key -> exists k n, v k = Some (n, p));
  hi_view : forall k n p, v k = Some (n, p) -> (exists P, mget p (w_pages w) = Some P) /\ e_key (n_entry n) = k /\
    child_of k p = true /\ int32_key k }.

Lemma set_view_same k x v : set_view k x v k = Some x.
Proof. unfold set_view. now rewrite key_eqb_refl. Qed.
Lemma set_view_other k x v k' : k <> k' -> set_view k x v k' = v k'.
Proof. intros N. unfold set_view. now destruct (key_eqb_spec k k'). Qed.

Lemma file_node_get p k nd pages q : mget q (file_node p k nd pages) =
  if key_eqb p q then Some (let P := match mget p pages with Some P => P | None => new_wpage end in
                            mkWP (wp_off P) (wp_size P) (mset k nd (wp_nodes P)) (wp_subs P))
  else mget q pages.
Proof.
  unfold file_node. rewrite mget_mset. destruct (key_eqb_spec p q) as [<-|N].
  - f_equal. unfold mhas. destruct (mget p pages) as [P|] eqn:E; [now rewrite E|]. rewrite mget_mset_same. reflexivity.
  - unfold mhas. destruct (mget p pages) as [P|] eqn:E; [reflexivity|]. now rewrite mget_mset_other.
Qed.
Lemma file_node_nodup p k nd pages : NoDup (map fst pages) -> NoDup (map fst (file_node p k nd pages)).
Proof. intros H. unfold file_node. apply mset_nodup. destruct (mhas p pages); [exact H|now apply mset_nodup]. Qed.

Lemma hinv_add v w w' k p nd : hinv v w -> int32_key k -> int32_key p -> child_of k p = true -> e_key (n_entry nd) = k ->
  (forall n q, v k = Some (n, q) -> q = p) ->
  w_loaded w' = mset k nd (w_loaded w) -> w_pages w' = file_node p k nd (w_pages w) -> hinv (set_view k (nd, p) v) w'.
Proof.
  intros I K32 P32 C EK CALM EL EP. constructor.
  - intros k'. rewrite EL, mget_mset. unfold set_view. destruct (key_eqb k k'); [reflexivity|apply I].
  - rewrite EP. apply file_node_nodup, I.
  - destruct (hi_root _ _ I) as (P & E). rewrite EP, file_node_get. destruct (key_eqb p root_key); eauto.
  - intros q Q. rewrite EP, file_node_get. destruct (key_eqb_spec p q) as [<-|N].
    + intros [= <-]. cbn [wp_subs wp_nodes].
      assert (Old : wp_subs (match mget p (w_pages w) with Some P => P | None => new_wpage end) = [] /\
        NoDup (map fst (wp_nodes (match mget p (w_pages w) with Some P => P | None => new_wpage end))) /\
        (forall k' n, mget k' (wp_nodes (match mget p (w_pages w) with Some P => P | None => new_wpage end)) = Some n <-> v k' = Some (n, p))).
      { destruct (mget p (w_pages w)) as [P|] eqn:E.
        - destruct (hi_page _ _ I _ _ E) as (_ & _ & A & B & D & _). now split.
        - cbn. split; [reflexivity|]. split; [constructor|]. intros k' n. split; [discriminate|]. intros V.
          destruct (hi_view _ _ I _ _ _ V) as ((P & X) & _). congruence. }
      destruct Old as (O1 & O2 & O3). split; [exact (child_of_valid_r _ _ C)|]. split; [exact P32|]. split; [exact O1|].
      split; [now apply mset_nodup|]. split.
      * intros k' n. rewrite mget_mset. destruct (key_eqb_spec k k') as [<-|Nk].
        -- rewrite set_view_same. split; [intros [= ->]; reflexivity|intros [= ->]; reflexivity].
        -- rewrite set_view_other by assumption. apply O3.
      * intros _. exists k, nd. apply set_view_same.
    + intros E. destruct (hi_page _ _ I _ _ E) as (A & B & D & F & G & H). repeat (split; [assumption|]). split.
      * intros k' n. rewrite G. unfold set_view. destruct (key_eqb_spec k k') as [<-|Nk]; [|reflexivity].
        split; [intros V; apply CALM in V; congruence|intros [= <- <-]; congruence].
      * intros NR. destruct (H NR) as (k' & n & V). exists k', n. rewrite set_view_other; [exact V|].
        intros <-. apply CALM in V. congruence.
  - intros k' n q. unfold set_view. destruct (key_eqb_spec k k') as [<-|Nk].
    + intros [= <- <-]. split; [|now split]. rewrite EP, file_node_get, key_eqb_refl. eauto.
    + intros V. destruct (hi_view _ _ I _ _ _ V) as ((P & E) & T). split; [|exact T].
      rewrite EP, file_node_get. destruct (key_eqb p q); eauto.
Qed.

(* a move of a node whose recorded page is its real page *)
Lemma hinv_move v w w' r k p : hinv v w -> int32_key p -> (forall n q, v k = Some (n, q) -> n_page n = q) ->
  change_node_page k p w = (w', r) ->
  r <> UB /\ (r = Throw -> w' = w) /\ (r = Ok tt -> exists n q, v k = Some (n, q) /\ hinv (set_view k (n, p) v) w').
Proof.
  intros I P32 CALM H. unfold change_node_page in H.
  destruct (negb (key_valid k)); [injection H as <- <-; repeat split; discriminate|].
  destruct (negb (key_valid p)); [injection H as <- <-; repeat split; discriminate|].
  pose proof (hi_loaded _ _ I k) as EL. destruct (mget k (w_loaded w)) as [nd|]; [|injection H as <- <-; repeat split; discriminate].
  destruct (child_of k p) eqn:C; cbn [negb] in H; [|injection H as <- <-; repeat split; discriminate].
  destruct (v k) as [(nd', q)|] eqn:V; [|discriminate]. cbn in EL. injection EL as <-.
  assert (NP : n_page nd = q) by exact (CALM _ _ eq_refl). destruct (hi_view _ _ I _ _ _ V) as ((Q & EQ) & EK & CQ & K32).
  destruct (key_eqb_spec (n_page nd) p) as [EP|NE].
  { injection H as <- <-. split; [discriminate|]. split; [discriminate|]. intros _. exists nd, q. split; [reflexivity|].
    assert (EV : forall k', set_view k (nd, p) v k' = v k').
    { intros k'. unfold set_view. destruct (key_eqb_spec k k') as [<-|]; [|reflexivity]. rewrite V. congruence. }
    destruct I as [I1 I2 I3 I4 I5]. constructor; auto.
    - intros k'. now rewrite EV.
    - intros p' P' E. destruct (I4 _ _ E) as (A & B & D & F & G & J). repeat (split; [assumption|]). split.
      + intros k' n. now rewrite EV.
      + intros N. destruct (J N) as (k' & n & X). exists k', n. now rewrite EV.
    - intros k' n p'. rewrite EV. apply I5. }
  change (mset p _ _) with (file_node p k nd (w_pages w)) in H. rewrite NP in *.
  rewrite file_node_get in H. destruct (key_eqb_spec p q) as [X|_]; [congruence|]. rewrite EQ in H.
  cbn [wp_off wp_size wp_nodes wp_subs] in H. pose proof (f_equal fst H) as Hw. pose proof (f_equal snd H) as Hr. cbn [fst snd] in Hw, Hr. clear H. subst w' r.
  split; [discriminate|]. split; [discriminate|]. intros _. exists nd, q. split; [reflexivity|].
  destruct (hi_page _ _ I _ _ EQ) as (Aq & Bq & Dq & Fq & Gq & Jq).
  set (Q' := mkWP (wp_off Q) (wp_size Q) (mdel k (wp_nodes Q)) (wp_subs Q)).
  set (drop := negb (key_eqb q root_key) && match mdel k (wp_nodes Q) with [] => true | _ => false end).
  set (pages := if drop then mdel q (mset q Q' (file_node p k nd (w_pages w))) else mset q Q' (file_node p k nd (w_pages w))).
  assert (GP : forall x, mget x pages = if key_eqb q x then (if drop then None else Some Q') else mget x (file_node p k nd (w_pages w))).
  { intros x. unfold pages. destruct drop; rewrite ?mget_mdel, ?mget_mset; destruct (key_eqb_spec q x); reflexivity. }
  assert (ND : NoDup (map fst pages)).
  { unfold pages. destruct drop; [apply mdel_nodup|]; apply mset_nodup, file_node_nodup, I. }
  clearbody pages. constructor; cbn [w_loaded w_pages].
  - intros k'. rewrite (hi_loaded _ _ I). unfold set_view. destruct (key_eqb_spec k k') as [<-|]; [|reflexivity]. now rewrite V.
  - exact ND.
  - rewrite GP. destruct (key_eqb_spec q root_key) as [ER|NR].
    + assert (drop = false) as -> by reflexivity. eauto.
    + rewrite file_node_get. destruct (key_eqb p root_key); eauto. apply I.
  - intros x X. rewrite GP. destruct (key_eqb_spec q x) as [<-|Nx].
    + destruct drop eqn:Ed; [discriminate|]. intros [= <-]. unfold Q'. cbn [wp_subs wp_nodes].
      repeat (split; [assumption|]). split; [now apply mdel_nodup|]. split.
      * intros k' n. rewrite mget_mdel. unfold set_view. destruct (key_eqb_spec k k') as [<-|Nk]; [|apply Gq].
        split; [discriminate|intros [= <- <-]; congruence].
      * intros NR. unfold drop in Ed. destruct (key_eqb_spec q root_key) as [|_]; [congruence|]. cbn [negb andb] in Ed.
        destruct (mdel k (wp_nodes Q)) as [|(k', n) rest] eqn:EM; [discriminate|].
        assert (M : mget k' (mdel k (wp_nodes Q)) = Some n) by (rewrite EM; cbn; now rewrite key_eqb_refl).
        rewrite mget_mdel in M. destruct (key_eqb_spec k k') as [<-|Nk]; [discriminate|]. exists k', n.
        rewrite set_view_other by assumption. now apply Gq.
    + rewrite file_node_get. destruct (key_eqb_spec p x) as [<-|Np].
      * intros [= <-]. cbn [wp_subs wp_nodes].
        assert (Old : wp_subs (match mget p (w_pages w) with Some P => P | None => new_wpage end) = [] /\
          NoDup (map fst (wp_nodes (match mget p (w_pages w) with Some P => P | None => new_wpage end))) /\
          (forall k' n, mget k' (wp_nodes (match mget p (w_pages w) with Some P => P | None => new_wpage end)) = Some n <-> v k' = Some (n, p))).
        { destruct (mget p (w_pages w)) as [P|] eqn:E.
          - destruct (hi_page _ _ I _ _ E) as (_ & _ & A & B & D & _). now split.
          - cbn. split; [reflexivity|]. split; [constructor|]. intros k' n. split; [discriminate|]. intros V'.
            destruct (hi_view _ _ I _ _ _ V') as ((P & X) & _). congruence. }
        destruct Old as (O1 & O2 & O3). split; [exact (child_of_valid_r _ _ C)|]. split; [exact P32|]. split; [exact O1|].
        split; [now apply mset_nodup|]. split.
        -- intros k' n. rewrite mget_mset. destruct (key_eqb_spec k k') as [<-|Nk].
           ++ rewrite set_view_same. split; [intros [= ->]; reflexivity|intros [= ->]; reflexivity].
           ++ rewrite set_view_other by assumption. apply O3.
        -- intros _. exists k, nd. apply set_view_same.
      * intros E. destruct (hi_page _ _ I _ _ E) as (A & B & D & F & G & J). repeat (split; [assumption|]). split.
        -- intros k' n. rewrite G. unfold set_view. destruct (key_eqb_spec k k') as [<-|Nk]; [|reflexivity].
           rewrite V. split; [intros [= _ X1]; congruence|intros [= _ X1]; congruence].
        -- intros NR. destruct (J NR) as (k' & n & V'). exists k', n. rewrite set_view_other; [exact V'|].
           intros <-. rewrite V in V'. injection V' as _ ->. congruence.
  - intros k' n x. unfold set_view. destruct (key_eqb_spec k k') as [<-|Nk].
    + intros [= <- <-]. split; [|exact (conj EK (conj C K32))]. rewrite GP. destruct (key_eqb_spec q p); [congruence|].
      rewrite file_node_get, key_eqb_refl. eauto.
    + intros V'. destruct (hi_view _ _ I _ _ _ V') as ((P & E) & T). split; [|exact T].
      rewrite GP. destruct (key_eqb_spec q x) as [<-|Nx].
      * assert (drop = false) as ->; [|eauto]. unfold drop. destruct (mdel k (wp_nodes Q)) eqn:EM; [|apply andb_false_r].
        assert (M : mget k' (mdel k (wp_nodes Q)) = Some n).
        { rewrite mget_mdel. destruct (key_eqb_spec k k'); [congruence|]. now apply Gq. }
        rewrite EM in M. discriminate.
      * rewrite file_node_get. destruct (key_eqb p x); eauto.
Qed.
