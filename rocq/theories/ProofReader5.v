(* ProofReader5.v - loading terminates on finite page trees, whatever the file and the stream's state *)
From Coq Require Import Permutation.
From Verif Require Import Base BaseFacts ModelFloat ModelKey ModelGeom ModelEntry ModelPoint ModelPoints ModelHeader ModelVlr ModelExtents ModelConfig
  ModelStream ModelWriter ModelReader SpecKey SpecPoint SpecWriter SpecHier SpecReader ProofKey ProofPoint ProofStream ProofTree ProofPages ProofHier
  ProofReader ProofReader2 ProofReader3 ProofReader4.

Fixpoint decode (n : nat) (b : bytes) : option (list entry) :=
  match n with
  | O => Some []
  | S m => match entry_unpack b with Some (e, b) => match decode m b with Some l => Some (e :: l) | None => None end | None => None end
  end.
Lemma decode_spec : forall n b es, decode n b = Some es <-> length es = n /\ entries_from b es.
Proof.
  induction n as [|n IH]; intros b es; cbn [decode].
  - split; [intros E; injection E as <-; split; [reflexivity|exact I]|]. intros (L & _). now destruct es.
  - split.
    + destruct (entry_unpack b) as [(e, b')|] eqn:U; [|discriminate]. destruct (decode n b') as [l|] eqn:D; [|discriminate]. intros E. injection E as <-.
      apply IH in D. destruct D as (D1 & D2). split; [cbn; lia|]. exists b'. auto.
    + intros (L & E). destruct es as [|e es]; [discriminate|]. cbn [entries_from] in E. destruct E as (b' & -> & E). cbn in L.
      rewrite (proj2 (IH b' es)); auto.
Qed.
Lemma read_entries_decode : forall n b fl l, read_entries n b = (fl, Ok l) -> decode n b = Some l /\ Forall (fun e => entry_valid e = true) l.
Proof.
  induction n as [|n IH]; intros b fl l E; cbn [read_entries decode] in *; [injection E as _ <-; auto|].
  destruct (entry_unpack b) as [(e, b')|]; [|injection E as _ E; unfold short_entry in E; destruct (_ : option key) as [k|]; [destruct (key_valid k)|]; discriminate].
  destruct (entry_valid e) eqn:V; cbn [negb] in E; [|discriminate]. destruct (read_entries n b') as (f2, [l2| |]) eqn:R; try discriminate.
  injection E as _ <-. destruct (IH _ _ _ R) as (-> & F). split; [reflexivity|]. constructor; auto.
Qed.

(* the pages after the loop over the entries, without any assumption on them *)
Lemma add_entries_pages i pk : forall l r p, nth_error (r_pages r) i = Some p -> Forall (fun e => entry_valid e = true) l ->
  let r' := fold_left (add_entry i pk) l r in
  r_data r' = r_data r /\ exists p', rp_off p' = rp_off p /\ rp_size p' = rp_size p /\ rp_loaded p' = rp_loaded p /\ rp_key p' = rp_key p /\
    rp_subs p' = rp_subs p ++ seq (length (r_pages r)) (length (subs_of_ents l)) /\
    r_pages r' = upd_nth i (fun _ => p') (r_pages r) ++ map page_of_entry (subs_of_ents l).
Proof.
  induction l as [|e l IH]; intros r p P V; cbn [fold_left].
  - split; [reflexivity|]. exists p. repeat split; auto; cbn [subs_of_ents filter length seq map]; rewrite app_nil_r; auto. now rewrite upd_nth_id.
  - inversion V as [|? ? V1 V2]; subst. pose proof (proj1 (nth_error_Some (r_pages r) i) ltac:(now rewrite P)) as LI.
    unfold add_entry at 2 4. rewrite (valid_is_page e V1). unfold subs_of_ents in *. cbn [filter]. destruct (is_sub e) eqn:SE.
    + set (r1 := mkR _ _ _ _ _ _ _). destruct (IH r1 (add_subpage (length (r_pages r)) p)) as (D & p' & A1 & A2 & A3 & A4 & A5 & A6); auto.
      { unfold r1. cbn [r_pages]. rewrite upd_nth_get, Nat.eqb_refl, nth_error_app1, P by exact LI. reflexivity. }
      split; [exact D|]. exists p'. repeat split; auto.
      * rewrite A5. unfold add_subpage, r1. cbn [rp_subs r_pages]. rewrite upd_nth_length, app_length. cbn [length seq]. rewrite Nat.add_1_r, <- app_assoc. reflexivity.
      * rewrite A6. unfold r1. cbn [r_pages]. rewrite upd_nth_twice, upd_nth_app by exact LI. rewrite <- app_assoc. reflexivity.
    + set (r1 := mkR _ _ _ _ _ _ _). destruct (IH r1 (add_page_node (mkNode e pk) p)) as (D & p' & A1 & A2 & A3 & A4 & A5 & A6); auto.
      { unfold r1. cbn [r_pages]. rewrite upd_nth_get, Nat.eqb_refl, P. reflexivity. }
      split; [exact D|]. exists p'. repeat split; auto.
      * rewrite A5. unfold add_page_node, r1. cbn [rp_subs r_pages]. now rewrite upd_nth_length.
      * rewrite A6. unfold r1. cbn [r_pages]. now rewrite upd_nth_twice.
Qed.

Lemma Forall2_len {A B} (P : A -> B -> Prop) l l' : Forall2 P l l' -> length l = length l'.
Proof. intros H. induction H; cbn; auto. Qed.

Section Finite.
Variable f : bytes.

(* the number of pages of a finite tree *)
Inductive sized : Z -> Z -> nat -> Prop :=
| sized_page off size n : (forall es, entries_at f off size es -> exists ws, Forall2 (fun e w => sized (e_offset e) (e_size e) w) (subs_of_ents es) ws /\ (list_sum ws < n)%nat) -> sized off size n.
Lemma entries_once off size es es' : entries_at f off size es -> entries_at f off size es' -> es = es'.
Proof. intros A B. apply decode_spec in A. apply decode_spec in B. congruence. Qed.
Lemma finite_sized off size : finite_tree f off size -> exists n, sized off size n.
Proof.
  intros H. induction H as [off size H IH].
  destruct (decode (Z.to_nat (size / 32)) (skipn (Z.to_nat off) f)) as [es|] eqn:D.
  - apply decode_spec in D. change (entries_at f off size es) in D.
    assert (X : exists ws, Forall2 (fun e w => sized (e_offset e) (e_size e) w) (subs_of_ents es) ws).
    { assert (Y : forall e, In e (subs_of_ents es) -> exists w, sized (e_offset e) (e_size e) w).
      { intros e E. apply filter_In in E. destruct E as (E & S). exact (IH es e D E S). }
      revert Y. generalize (subs_of_ents es). intros l. induction l as [|e l IHl]; intros Y; [exists []; constructor|].
      destruct (Y e (or_introl eq_refl)) as (w & W). destruct IHl as (ws & WS); [intros e' E'; apply Y; now right|]. exists (w :: ws). now constructor. }
    destruct X as (ws & WS). exists (S (list_sum ws)). constructor. intros es' D'. rewrite (entries_once _ _ _ _ D' D). exists ws. split; [exact WS|lia].
  - exists 1%nat. constructor. intros es E. apply decode_spec in E. congruence.
Qed.

(* pages not read yet are roots of finite trees; the sub-pages of a page that was read are those of its entries *)
Definition fin_page (r : reader) (p : rpage) : Prop :=
  if rp_loaded p then exists es, entries_at f (rp_off p) (rp_size p) es /\
    forall i, In i (rp_subs p) -> exists q e, nth_error (r_pages r) i = Some q /\ In e es /\ is_sub e = true /\ rp_off q = e_offset e /\ rp_size q = e_size e
  else rp_subs p = [].
Definition fin (r : reader) : Prop := r_data r = f /\ forall i p, nth_error (r_pages r) i = Some p -> fin_page r p /\ finite_tree f (rp_off p) (rp_size p).
Definition weigh (p : rpage) (w : nat) : nat := if rp_loaded p then 0%nat else w.
Definition weight (r : reader) (m : nat) : Prop :=
  exists ws, Forall2 (fun p w => rp_loaded p = false -> sized (rp_off p) (rp_size p) w) (r_pages r) ws /\ list_sum (map (fun x => weigh (fst x) (snd x)) (combine (r_pages r) ws)) = m.
Definition extends (r r' : reader) : Prop :=
  forall i p, nth_error (r_pages r) i = Some p -> exists p', nth_error (r_pages r') i = Some p' /\ rp_off p' = rp_off p /\ rp_size p' = rp_size p /\ (rp_loaded p = true -> p' = p).
Lemma extends_refl r : extends r r.
Proof. intros i p P. exists p. auto. Qed.
Lemma extends_trans a b c : extends a b -> extends b c -> extends a c.
Proof.
  intros A B i p P. destruct (A i p P) as (p' & P1 & P2 & P3 & P4). destruct (B i p' P1) as (p'' & Q1 & Q2 & Q3 & Q4). exists p''. split; [exact Q1|]. split; [congruence|]. split; [congruence|].
  intros L. rewrite Q4; [auto|]. rewrite P4; auto.
Qed.
Lemma extends_fail b r : extends r (with_fail b r).
Proof. intros i p P. exists p. auto. Qed.
Lemma fin_fail b r : fin r -> fin (with_fail b r).
Proof. auto. Qed.
Lemma weight_exists r : fin r -> exists m, weight r m.
Proof.
  intros (_ & H). assert (Y : forall p, In p (r_pages r) -> finite_tree f (rp_off p) (rp_size p)).
  { intros p P. apply In_nth_error in P. destruct P as (i & P). now destruct (H i p P). }
  assert (X : exists ws, Forall2 (fun p w => rp_loaded p = false -> sized (rp_off p) (rp_size p) w) (r_pages r) ws).
  { revert Y. generalize (r_pages r). intros l. induction l as [|p l IHl]; intros Y; [exists []; constructor|].
    destruct (finite_sized _ _ (Y p (or_introl eq_refl))) as (w & W). destruct IHl as (ws & WS); [intros e' E'; apply Y; now right|]. exists (w :: ws). constructor; auto. }
  destruct X as (ws & WS). eexists. exists ws. split; [exact WS|reflexivity].
Qed.

(* what reading page i does *)
Lemma parse_shape r i p r' o : nth_error (r_pages r) i = Some p -> rp_loaded p = false -> read_and_parse i r = (r', o) ->
  (o <> Ok tt /\ exists b, r' = with_fail b r) \/
  (o = Ok tt /\ exists es p', entries_at (r_data r) (rp_off p) (rp_size p) es /\ rp_off p' = rp_off p /\ rp_size p' = rp_size p /\ rp_loaded p' = true /\
     rp_subs p' = rp_subs p ++ seq (length (r_pages r)) (length (subs_of_ents es)) /\ r_data r' = r_data r /\ r_pages r' = upd_nth i (fun _ => p') (r_pages r) ++ map page_of_entry (subs_of_ents es)).
Proof.
  intros P L E. unfold read_and_parse in E. rewrite P in E. unfold read_page in E. rewrite P in E.
  destruct (rpage_valid p); cbn [negb] in E; [|injection E as <- <-; left; split; [discriminate|]; exists (r_fail r); now destruct r].
  set (r0 := seek (rp_off p) r) in *.
  assert (F0 : exists b, r0 = with_fail b r). { unfold r0, seek. destruct (r_fail r) eqn:F; [exists true; destruct r; cbn in *; now subst|eauto]. }
  destruct F0 as (b0 & F0).
  destruct (read_entries (Z.to_nat (rp_size p / 32)) (rest_at (rp_off p) r0)) as (fl, [es| |]) eqn:RE.
  - right. destruct (read_entries_decode _ _ _ _ RE) as (D & V).
    set (r1 := with_pages (upd_nth i set_loaded (r_pages r0)) (with_fail (r_fail r0 || fl) r0)) in E.
    assert (P1 : nth_error (r_pages r1) i = Some (set_loaded p)). { unfold r1. rewrite F0. cbn [with_pages with_fail r_pages]. rewrite upd_nth_get, Nat.eqb_refl, P. reflexivity. }
    destruct (add_entries_pages i (rp_key p) es r1 (set_loaded p) P1 V) as (DA & p' & A1 & A2 & A3 & _ & A5 & A6).
    pose proof (f_equal fst E) as E1. pose proof (f_equal snd E) as E2. cbn [fst snd] in E1, E2. clear E. split; [now symmetry|]. rewrite <- E1.
    exists es, p'. split.
    { split.
      - apply decode_spec in D. now destruct D.
      - unfold rest_at in D. destruct (r_fail r0).
        + apply decode_spec in D. destruct D as (DL & D). destruct es as [|e es]; [exact I|]. cbn [entries_from] in D. destruct D as (b' & D & _). cbn in D. discriminate.
        + rewrite F0 in D. cbn [with_fail r_data] in D. apply decode_spec in D. now destruct D. }
    unfold r1 in A5, A6, DA |- *. rewrite F0 in A5, A6, DA |- *. cbn [with_pages with_fail r_pages r_data set_loaded rp_off rp_size rp_loaded rp_subs] in *. rewrite upd_nth_length in A5.
    rewrite upd_nth_twice in A6. repeat split; auto.
  - left. injection E as <- <-. split; [discriminate|]. rewrite F0. eexists. reflexivity.
  - left. injection E as <- <-. split; [discriminate|]. rewrite F0. eexists. reflexivity.
Qed.
Lemma fin_parse r i p r' o : fin r -> nth_error (r_pages r) i = Some p -> rp_loaded p = false -> read_and_parse i r = (r', o) -> fin r' /\ extends r r'.
Proof.
  intros (D & H) P L E. destruct (parse_shape r i p r' o P L E) as [(_ & b & ->)|(_ & es & p' & A1 & A2 & A3 & A4 & A5 & A6 & A7)].
  - split; [split; auto|apply extends_fail].
  - pose proof (proj1 (nth_error_Some (r_pages r) i) ltac:(now rewrite P)) as LI.
    assert (OLD : forall j q, nth_error (r_pages r) j = Some q -> nth_error (r_pages r') j = Some (if (j =? i)%nat then p' else q)).
    { intros j q Q. assert (j < length (r_pages r))%nat by (apply nth_error_Some; now rewrite Q). rewrite A7, nth_error_app1 by (now rewrite upd_nth_length).
      rewrite upd_nth_get. destruct (Nat.eqb_spec j i) as [->|]; [now rewrite P|exact Q]. }
    assert (EX : extends r r').
    { intros j q Q. rewrite (OLD j q Q). eexists. split; [reflexivity|]. destruct (Nat.eqb_spec j i) as [->|]; [|auto]. rewrite P in Q. injection Q as <-. repeat split; auto. congruence. }
    split; [|exact EX]. rewrite D in A1. split; [congruence|]. destruct (H i p P) as (FP & FT). unfold fin_page in FP. rewrite L in FP. intros j q Q.
    assert (CASE : (j = i /\ q = p') \/ nth_error (r_pages r) j = Some q \/ exists m e, j = (length (r_pages r) + m)%nat /\ nth_error (subs_of_ents es) m = Some e /\ q = page_of_entry e).
    { destruct (Nat.lt_ge_cases j (length (r_pages r))) as [Lt|Ge].
      - destruct (nth_error (r_pages r) j) as [q0|] eqn:Q0; [|apply nth_error_None in Q0; lia]. rewrite (OLD j q0 Q0) in Q. injection Q as <-. destruct (Nat.eqb_spec j i); auto.
      - right. right. rewrite A7, nth_error_app2 in Q by (now rewrite upd_nth_length). rewrite upd_nth_length, nth_error_map in Q. destruct (nth_error (subs_of_ents es) (j - length (r_pages r))) as [e|] eqn:Q1; [|discriminate].
        injection Q as <-. exists (j - length (r_pages r))%nat, e. split; [lia|auto]. }
    destruct CASE as [(-> & ->)|[Q0|(m & e & -> & Q1 & ->)]].
    + rewrite A2, A3. split; [|exact FT]. unfold fin_page. rewrite A4. exists es. rewrite A2, A3. split; [exact A1|]. intros x X. rewrite A5, FP in X. cbn [app] in X. apply in_seq in X.
      destruct (nth_error (subs_of_ents es) (x - length (r_pages r))) as [e|] eqn:Q1; [|apply nth_error_None in Q1; lia].
      exists (page_of_entry e), e. split; [|split; [|split; [|split; reflexivity]]].
      * rewrite A7, nth_error_app2 by (rewrite upd_nth_length; lia). rewrite upd_nth_length, nth_error_map, Q1. reflexivity.
      * apply nth_error_In in Q1. apply filter_In in Q1. tauto.
      * apply nth_error_In in Q1. apply filter_In in Q1. tauto.
    + destruct (H j q Q0) as (FQ & TQ). split; [|exact TQ]. unfold fin_page in *. destruct (rp_loaded q); [|exact FQ]. destruct FQ as (es' & B1 & B2). exists es'. split; [exact B1|].
      intros x X. destruct (B2 x X) as (q' & e & C1 & C2 & C3 & C4 & C5). destruct (EX x q' C1) as (q2 & X1 & X2 & X3 & _). exists q2, e. repeat split; auto; congruence.
    + cbn [rp_off rp_size page_of_entry new_rpage]. split; [reflexivity|]. apply nth_error_In in Q1. apply filter_In in Q1. destruct Q1 as (Q1 & Q2). inversion FT as [? ? FT']; subst.
      exact (FT' es e A1 Q1 Q2).
Qed.
(* reading a page leaves less to read *)
Lemma weigh_upd : forall (ps : list rpage) ws i p p', Forall2 (fun p w => rp_loaded p = false -> sized (rp_off p) (rp_size p) w) ps ws -> nth_error ps i = Some p -> rp_loaded p = false -> rp_loaded p' = true ->
  exists w, sized (rp_off p) (rp_size p) w /\ Forall2 (fun p w => rp_loaded p = false -> sized (rp_off p) (rp_size p) w) (upd_nth i (fun _ => p') ps) ws /\
    (list_sum (map (fun x => weigh (fst x) (snd x)) (combine (upd_nth i (fun _ => p') ps) ws)) + w = list_sum (map (fun x => weigh (fst x) (snd x)) (combine ps ws)))%nat.
Proof.
  induction ps as [|q ps IH]; intros ws i p p' F P L L'; [destruct i; discriminate|]. inversion F as [|? w ? ws' F1 F2]; subst. destruct i as [|i].
  - injection P as ->. exists w. split; [auto|]. split; [constructor; [congruence|exact F2]|]. cbn [upd_nth firstn skipn app combine map fst snd list_sum fold_right]. unfold list_sum. cbn [fold_right].
    unfold weigh at 1 3. rewrite L, L'. lia.
  - cbn [nth_error] in P. destruct (IH ws' i p p' F2 P L L') as (w0 & A & B & C). exists w0. split; [exact A|]. rewrite upd_nth_cons. split; [now constructor|].
    cbn [combine map fst snd]. unfold list_sum in *. cbn [fold_right]. lia.
Qed.
Lemma weight_parse r i p r' o m : fin r -> weight r m -> nth_error (r_pages r) i = Some p -> rp_loaded p = false -> read_and_parse i r = (r', o) -> o = Ok tt -> exists m', weight r' m' /\ (m' < m)%nat.
Proof.
  intros (D & H) (ws & F & M) P L E O. destruct (parse_shape r i p r' o P L E) as [(N & _)|(_ & es & p' & A1 & A2 & A3 & A4 & A5 & A6 & A7)]; [congruence|]. rewrite D in A1.
  destruct (weigh_upd (r_pages r) ws i p p' F P L A4) as (w & W1 & W2 & W3). inversion W1 as [? ? ? W]; subst. destruct (W es A1) as (vs & V1 & V2).
  exists (list_sum (map (fun x => weigh (fst x) (snd x)) (combine (upd_nth i (fun _ => p') (r_pages r)) ws)) + list_sum vs)%nat. split; [|unfold list_sum in *; lia].
  exists (ws ++ vs). rewrite A7. split.
  - apply Forall2_app; [exact W2|]. clear -V1. induction V1 as [|e v l vl V1 _ IH]; cbn [map]; constructor; auto.
  - assert (X : forall (a b : list rpage) (u v : list nat), length a = length u -> combine (a ++ b) (u ++ v) = combine a u ++ combine b v).
    { induction a as [|x a IHa]; intros b [|y u] v LE; try discriminate; [reflexivity|]. cbn [app combine]. f_equal. apply IHa. now injection LE. }
    rewrite X by (rewrite upd_nth_length; eapply Forall2_len; exact F). rewrite map_app. rewrite list_sum_app. f_equal.
    clear -V1. induction V1 as [|e v l vl V1 _ IH]; cbn [map combine fst snd]; [reflexivity|]. unfold list_sum in *. cbn [fold_right]. rewrite IH. reflexivity.
Qed.
Lemma find_terminates k : forall m r, fin r -> weight r m -> exists x, find_node (S m) k r = Some x.
Proof.
  induction m as [m IH] using lt_wf_ind. intros r R W. cbn [find_node]. destruct (mget k (r_nodes r)); [eauto|]. destruct (nearest_seen _ _) as [i|]; [|eauto].
  destruct (nth_error (r_pages r) i) as [p|] eqn:P; [|eauto]. destruct (rp_loaded p) eqn:L; [eauto|]. destruct (read_and_parse i r) as (r1, [[]| |]) eqn:E; cbn [and_then]; eauto.
  destruct (weight_parse r i p r1 _ m R W P L E eq_refl) as (m' & W' & LT). destruct (IH m' LT r1 (proj1 (fin_parse _ _ _ _ _ R P L E)) W') as (x & X).
  exists x. refine (find_mono k _ _ _ _ _ X). lia.
Qed.
Lemma kept_load_fin od fuel i r : fin r -> kept fin extends r (load_pages fuel od i r).
Proof. intros R. apply kept_load; auto using extends_refl, extends_fail, fin_fail; [exact extends_trans|exact fin_parse]. Qed.
Lemma load_terminates od : visits_all od -> forall o s, finite_tree f o s -> exists n, forall r i p, fin r -> nth_error (r_pages r) i = Some p -> rp_off p = o -> rp_size p = s -> exists x, load_pages n od i r = Some x.
Proof.
  intros (VS & _ & _) o s H. induction H as [o s H IH].
  assert (N : exists n, forall es e, entries_at f o s es -> In e es -> is_sub e = true -> forall r i p, fin r -> nth_error (r_pages r) i = Some p -> rp_off p = e_offset e -> rp_size p = e_size e -> exists x, load_pages n od i r = Some x).
  { destruct (decode (Z.to_nat (s / 32)) (skipn (Z.to_nat o) f)) as [es|] eqn:D.
    - apply decode_spec in D. change (entries_at f o s es) in D.
      assert (Y : forall e, In e es -> is_sub e = true -> exists n, forall r i p, fin r -> nth_error (r_pages r) i = Some p -> rp_off p = e_offset e -> rp_size p = e_size e -> exists x, load_pages n od i r = Some x) by (intros e E S; exact (IH es e D E S)).
      assert (Z0 : exists n, forall e, In e es -> is_sub e = true -> forall r i p, fin r -> nth_error (r_pages r) i = Some p -> rp_off p = e_offset e -> rp_size p = e_size e -> exists x, load_pages n od i r = Some x).
      { clear IH H D. induction es as [|e es IHes]; [exists 0%nat; intros e []|]. destruct IHes as (n & Hn); [intros e' E'; apply Y; now right|].
        destruct (is_sub e) eqn:SE.
        - destruct (Y e (or_introl eq_refl) SE) as (m & Hm). exists (Nat.max n m). intros e' [<-|E'] S' r i p R P A B.
          + destruct (Hm r i p R P A B) as (x & X). exists x. refine (load_mono od _ _ _ _ _ _ X). lia.
          + destruct (Hn e' E' S' r i p R P A B) as (x & X). exists x. refine (load_mono od _ _ _ _ _ _ X). lia.
        - exists n. intros e' [<-|E'] S'; [congruence|]. exact (Hn e' E' S'). }
      destruct Z0 as (n & Hn). exists n. intros es' e E' I' S'. rewrite (entries_once _ _ _ _ E' D) in I'. exact (Hn e I' S').
    - exists 0%nat. intros es e E. apply decode_spec in E. congruence. }
  destruct N as (n & Hn). exists (S n). intros r i p R P A B. cbn [load_pages]. rewrite P. destruct (rpage_valid p); cbn [negb]; [|eauto].
  match goal with |- context [and_then ?x _] => assert (LOAD : exists r1 o1, x = Some (r1, o1) /\ fin r1 /\ extends r r1 /\ (o1 = Ok tt -> exists p1, nth_error (r_pages r1) i = Some p1 /\ rp_loaded p1 = true)) end.
  { destruct (rp_loaded p) eqn:L.
    - exists r, (Ok tt). split; [reflexivity|]. split; [exact R|]. split; [apply extends_refl|]. intros _. exists p. auto.
    - destruct (read_and_parse i r) as (r1, o1) eqn:E. exists r1, o1. split; [reflexivity|]. destruct (fin_parse _ _ _ _ _ R P L E) as (R1 & X1). split; [exact R1|]. split; [exact X1|].
      intros ->. destruct (parse_shape r i p r1 _ P L E) as [(N & _)|(_ & es & p' & A1 & A2 & A3 & A4 & A5 & A6 & A7)]; [congruence|].
      exists p'. split; [|exact A4]. rewrite A7, nth_error_app1 by (rewrite upd_nth_length; apply nth_error_Some; now rewrite P). now rewrite upd_nth_get, Nat.eqb_refl, P. }
  destruct LOAD as (r1 & o1 & -> & R1 & X1 & L1). cbn [and_then]. destruct o1 as [[]| |]; [|eauto|eauto]. destruct (L1 eq_refl) as (p1 & P1 & LD1). rewrite P1.
  destruct (X1 i p P) as (p1' & P1' & B1 & B2 & _). rewrite P1 in P1'. injection P1' as <-.
  destruct (proj2 R1 i p1 P1) as (FP & _). unfold fin_page in FP. rewrite LD1 in FP. destruct FP as (es & E1 & E2). rewrite B1, B2, A, B in E1.
  assert (EACH : forall ids r2, fin r2 -> (forall x, In x ids -> exists q e, nth_error (r_pages r2) x = Some q /\ In e es /\ is_sub e = true /\ rp_off q = e_offset e /\ rp_size q = e_size e) -> exists y, each_call (load_pages n od) ids r2 = Some y).
  { induction ids as [|x ids IHi]; intros r2 R2 HI; cbn [each_call]; [eauto|]. destruct (HI x (or_introl eq_refl)) as (q & e & Q1 & Q2 & Q3 & Q4 & Q5).
    destruct (Hn es e E1 Q2 Q3 r2 x q R2 Q1 Q4 Q5) as ((r3, o3) & Y). rewrite Y. destruct (kept_load_fin od n x r2 R2 _ _ Y) as (R3 & X3). destruct o3 as [l| |]; cbn [and_then]; eauto.
    destruct (IHi r3 R3) as ((r4, o4) & Y4).
    { intros z Z1. destruct (HI z (or_intror Z1)) as (q' & e' & C1 & C2 & C3 & C4 & C5). destruct (X3 z q' C1) as (q2 & D1 & D2 & D3 & _). exists q2, e'. repeat split; auto; congruence. }
    rewrite Y4. destruct o4; cbn [and_then]; eauto. }
  destruct (EACH (ro_subs od (rp_key p1) (rp_subs p1)) r1 R1) as ((r2, o2) & Y2).
  { intros x X. apply E2. eapply Permutation_in; [apply VS|exact X]. }
  rewrite Y2. destruct o2; cbn [and_then]; eauto.
Qed.
Lemma fresh_fin off size r : finite_tree f off size -> fresh_reader f off size r -> fin r.
Proof.
  intros T (A & B & C & D & E). split; [exact A|]. intros i p P. rewrite C in P. destruct i as [|[|i]]; try discriminate. injection P as <-. split; [reflexivity|exact T].
Qed.
Lemma used_fin cd od off size r0 r : finite_tree f off size -> fresh_reader f off size r0 -> reader_after cd od r0 r -> fin r.
Proof.
  intros T F (fuel & qs & E). refine (proj1 (kept_asks fin extends extends_refl extends_trans fin_fail extends_fail fin_parse cd od fuel qs r0 r (fresh_fin _ _ _ T F) E)).
Qed.
Lemma find_returns_fin k r : fin r -> exists r' o, returns (fun n => find_node n k r) r' o.
Proof.
  intros R. destruct (weight_exists r R) as (m & W). destruct (find_terminates k m r R W) as ((r', o) & X). exists r', o, (S m). intros n L. eapply find_mono; eauto.
Qed.
Lemma children_return_fin od k r : visits_all od -> fin r -> exists r' o, returns (fun n => get_all_children_of_page n od k r) r' o.
Proof.
  intros VA R. destruct (find_returns_fin k r R) as (r1 & o1 & n1 & H1).
  assert (X : exists n x, get_all_children_of_page n od k r = Some x).
  { unfold get_all_children_of_page. destruct (key_valid k) eqn:V; cbn [negb]; [|exists 0%nat; eauto]. specialize (H1 n1 (le_n _)) as E1.
    assert (R1 : fin r1). { refine (proj1 (kept_find fin extends extends_refl extends_trans fin_parse k n1 r R _ _ E1)). }
    destruct o1 as [n| |]; [|exists n1; rewrite E1; cbn [and_then]; eauto|exists n1; rewrite E1; cbn [and_then]; eauto].
    destruct (mget k (r_seen r1)) as [i|] eqn:SE; [|exists n1; rewrite E1; cbn [and_then]; rewrite SE; eauto].
    destruct (nth_error (r_pages r1) i) as [p|] eqn:P.
    - destruct (proj2 R1 i p P) as (_ & FT). destruct (load_terminates od VA _ _ FT) as (m & Hm). destruct (Hm r1 i p R1 P eq_refl eq_refl) as (x & X).
      exists (Nat.max n1 m). rewrite (H1 (Nat.max n1 m)) by lia. cbn [and_then]. rewrite SE. exists x. refine (load_mono od _ _ _ _ _ _ X). lia.
    - exists (S n1). rewrite (H1 (S n1)) by lia. cbn [and_then]. rewrite SE. cbn [load_pages]. rewrite P. eauto. }
  destruct X as (n & (r', o) & X). exists r', o, n. intros m L. eapply children_mono; eauto.
Qed.
End Finite.
