(* ProofHandles.v - lemmas about copies of a Writer *)
From Verif Require Import Base BaseFacts ModelFloat ModelKey ModelGeom ModelEntry ModelPoint ModelPoints ModelHeader ModelVlr ModelExtents ModelConfig
  ModelStream ModelWriter ModelLazReader ModelLife ModelShare ModelHandles SpecPoint SpecConfig SpecWriter SpecHandles ProofShare SampleWriter PropLife.

Lemma replace_length {A} (a : A) : forall l i, length (replace_nth i a l) = length l.
Proof. induction l as [|x l IH]; intros [|i]; cbn [replace_nth length]; auto. Qed.
Lemma close_shuts cd od w w' u : close cd od w = (w', Ok u) -> b_open (w_base w') = false.
Proof.
  unfold close. intros H. destruct (b_open (w_base w)) eqn:E; cbn [negb] in H.
  2:{ assert (w' = w) as -> by congruence. exact E. }
  destruct (copc_offset _); [|congruence..]. destruct (write_chunk_table _ _ _) as (b, [?| |]); [|congruence..]. cbv zeta in H.
  destruct (compute_hierarchy _ _); [|congruence..]. unfold then_ in H. destruct (write_page_tree _ _ _ _) as (w2, [?| |]); [|congruence..].
  destruct (copc_write_header _ _) as (w3, [?| |]); [|congruence..]. cbv zeta in H.
  match type of H with (?x, _) = _ => assert (Q : w' = x) by congruence end. rewrite Q. reflexivity.
Qed.
Lemma close_shut cd od w : b_open (w_base w) = false -> close cd od w = (w, Ok tt).
Proof. intros H. unfold close. rewrite H. reflexivity. Qed.
Lemma lone_app cd od a : forall b w w1 w2, lone cd od a w w1 -> lone cd od b w1 w2 -> lone cd od (a ++ b) w w2.
Proof.
  induction a as [|x a IH]; intros b w w1 w2 L M.
  - inversion L; subst. exact M.
  - inversion L; subst; cbn [app]; econstructor; eauto.
Qed.
Definition bounded (s : handles) : Prop := forall i n, meant s i = Some n -> (n < length (wd_pool s))%nat.
Definition view_of_handles (s : handles) : obj_file * nat := (wd_objs s, length (wd_pool s)).

(* closing the n-th writer *)
Lemma close_nth_spec cd ods n s s' r : close_nth cd ods n s = (s', r) -> r <> UB -> wd_objs s' = wd_objs s /\ length (wd_pool s') = length (wd_pool s) /\
  (r = Ok None \/ r = Throw) /\
  (forall m w, nth_error (wd_pool s) m = Some w -> exists w', nth_error (wd_pool s') m = Some w' /\ lone cd (ods m) (if Nat.eqb m n then [EClose r] else []) w w' /\ (m = n -> r = Ok None -> b_open (w_base w') = false)).
Proof.
  unfold close_nth. intros H U. destruct (nth_error (wd_pool s) n) as [w|] eqn:N; [|congruence]. destruct (close cd (ods n) w) as (w', q) eqn:C.
  assert (s' = mkHandles (replace_nth n w' (wd_pool s)) (wd_objs s)) as -> by congruence.
  assert (r = match q with Ok _ => Ok None | Throw => Throw | UB => UB end) as R by congruence. clear H. cbn [wd_pool wd_objs]. rewrite replace_length.
  split; [reflexivity|]. split; [reflexivity|]. split; [rewrite R in *; destruct q; auto; congruence|].
  intros m x M. destruct (Nat.eqb m n) eqn:E.
  - apply Nat.eqb_eq in E as ->. assert (x = w) as -> by congruence. exists w'. split; [apply replace_same; apply nth_error_Some; congruence|].
    split; [|intros _ Q; destruct q; [eapply close_shuts; exact C|congruence..]]. rewrite R. eapply lone_close; [exact C|apply lone_done].
  - apply Nat.eqb_neq in E. exists x. split; [now rewrite replace_other by congruence|]. split; [apply lone_done|congruence].
Qed.
Lemma close_nth_shut cd ods n s w : nth_error (wd_pool s) n = Some w -> b_open (w_base w) = false -> wd_pool (fst (close_nth cd ods n s)) = wd_pool s /\ snd (close_nth cd ods n s) = Ok None.
Proof.
  intros N O. unfold close_nth. rewrite N, close_shut by exact O. cbn [fst snd wd_pool]. split; [|reflexivity].
  clear O. revert n N. generalize (wd_pool s). induction l as [|x l IH]; intros [|n] N; cbn in *; try congruence. f_equal. auto.
Qed.

(* what one step does *)
Definition step_facts (cd : codec) (ods : nat -> orders) (o : hop) (s s' : handles) (r : outcome (option node)) : Prop :=
  view_of_handles s' = follow (o, r) (view_of_handles s) /\ bounded s' /\
  (forall n w, nth_error (wd_pool s) n = Some w -> exists w', nth_error (wd_pool s') n = Some w' /\ lone cd (ods n) (reaches n (wd_objs s) (o, r)) w w') /\
  (forall c v q, o = HNew c v -> r = Ok q -> exists w, open_writer None c v = Ok w /\ nth_error (wd_pool s') (length (wd_pool s)) = Some w).
Lemma meant_file s i : meant s i = file_of (wd_objs s) i.
Proof. reflexivity. Qed.
Lemma file_of_app m o i n : file_of (m ++ [o]) i = Some n -> file_of m i = Some n \/ o = Some n.
Proof.
  unfold file_of. destruct (Nat.lt_ge_cases i (length m)) as [L|L].
  - rewrite nth_error_app1 by exact L. auto.
  - rewrite nth_error_app2 by exact L. destruct (i - length m)%nat as [|k]; cbn; [destruct o; auto; right; congruence|destruct k; discriminate].
Qed.
Lemma file_of_replace m o i j n : file_of (replace_nth i o m) j = Some n -> file_of m j = Some n \/ o = Some n.
Proof.
  unfold file_of. destruct (Nat.eq_dec i j) as [->|D].
  - destruct (Nat.lt_ge_cases j (length m)) as [L|L].
    + rewrite replace_same by exact L. destruct o; auto.
    + intros H. left. rewrite <- H. assert (nth_error (replace_nth j o m) j = None) as -> by (apply nth_error_None; now rewrite replace_length). assert (nth_error m j = None) as -> by now apply nth_error_None. reflexivity.
  - rewrite replace_other by exact D. auto.
Qed.
Lemma means_some n m : means n (Some m) = Nat.eqb m n. Proof. reflexivity. Qed.
Lemma view_bounded s s' o r : view_of_handles s' = follow (o, r) (view_of_handles s) -> bounded s -> bounded s'.
Proof.
  intros V B i n M. pose proof (f_equal fst V) as V1. pose proof (f_equal snd V) as V2. cbn [view_of_handles fst snd] in V1, V2. rewrite meant_file, V1 in M. rewrite V2. clear V V1 V2.
  assert (B' : forall i n, file_of (wd_objs s) i = Some n -> (n < length (wd_pool s))%nat) by exact B. clear B.
  destruct o; cbn [follow view_of_handles fst snd] in *; try (eapply B'; eassumption).
  - destruct r; cbn [fst snd] in *; try (eapply B'; eassumption). apply file_of_app in M as [M|M]; [apply B' in M; lia|assert (length (wd_pool s) = n) by congruence; lia].
  - destruct r; cbn [fst snd] in *; try (eapply B'; eassumption). apply file_of_app in M as [M|M]; eapply B'; eassumption.
  - destruct r; cbn [fst snd] in *; try (eapply B'; eassumption). apply file_of_replace in M as [M|M]; eapply B'; eassumption.
  - destruct r; cbn [fst snd] in *; try (eapply B'; eassumption). apply file_of_replace in M as [M|M]; [eapply B'; eassumption|discriminate M].
Qed.
Lemma idle cd ods s s' o r : wd_pool s' = wd_pool s -> (forall n, reaches n (wd_objs s) (o, r) = []) -> forall n w, nth_error (wd_pool s) n = Some w -> exists w', nth_error (wd_pool s') n = Some w' /\ lone cd (ods n) (reaches n (wd_objs s) (o, r)) w w'.
Proof. intros E H n w N. exists w. rewrite H, E. split; [exact N|apply lone_done]. Qed.
Lemma step_spec cd ods o s s' r : hstep cd ods o s = Goes s' r -> r <> UB -> bounded s -> step_facts cd ods o s s' r.
Proof.
  intros H U B. enough (V : view_of_handles s' = follow (o, r) (view_of_handles s) /\
    (forall n w, nth_error (wd_pool s) n = Some w -> exists w', nth_error (wd_pool s') n = Some w' /\ lone cd (ods n) (reaches n (wd_objs s) (o, r)) w w') /\
    (forall c v q, o = HNew c v -> r = Ok q -> exists w, open_writer None c v = Ok w /\ nth_error (wd_pool s') (length (wd_pool s)) = Some w)).
  { destruct V as (V & V2 & V3). split; [exact V|]. split; [eapply view_bounded; eauto|]. auto. }
  destruct o as [c v|i|i j|i op|i|i]; cbn [hstep] in H.
  - destruct (construct_writer cd None c v) as [w| | |] eqn:E; [| |discriminate H|congruence].
    + assert (s' = mkHandles (wd_pool s ++ [w]) (wd_objs s ++ [Some (length (wd_pool s))])) as -> by congruence. assert (r = Ok None) as -> by congruence. unfold view_of_handles. cbn [wd_objs wd_pool follow fst snd]. split; [f_equal; rewrite app_length; cbn; lia|]. split.
      * intros n x N. exists x. split; [rewrite nth_error_app1; [exact N|apply nth_error_Some; congruence]|apply lone_done].
      * intros c' v' q Q _. assert (c' = c) as -> by congruence. assert (v' = v) as -> by congruence. exists w. split; [now apply C85_built in E|]. rewrite nth_error_app2, Nat.sub_diag by lia. reflexivity.
    + assert (s' = s) as -> by congruence. assert (r = Throw) as -> by congruence. split; [reflexivity|]. split; [apply idle; [reflexivity|reflexivity]|intros; congruence].
  - destruct (meant s i) as [n|] eqn:M; [|congruence]. assert (s' = mkHandles (wd_pool s) (wd_objs s ++ [Some n])) as -> by congruence. assert (r = Ok None) as -> by congruence.
    split; [unfold view_of_handles; cbn [wd_objs wd_pool follow fst snd]; rewrite <- meant_file, M; reflexivity|]. split; [apply idle; [reflexivity|reflexivity]|intros; discriminate].
  - destruct (meant s i) as [n|] eqn:M; [|congruence]. destruct (meant s j) as [m|] eqn:M2; [|congruence]. unfold released in H.
    destruct (held _ n) eqn:HD.
    + assert (s' = mkHandles (wd_pool s) (replace_nth i (Some m) (wd_objs s))) as -> by congruence. assert (r = Ok None) as -> by congruence. unfold held in HD. cbn [wd_objs] in HD.
      split; [unfold view_of_handles; cbn [wd_objs wd_pool follow fst snd]; rewrite <- meant_file, M2; reflexivity|]. split; [|intros; discriminate].
      apply idle; [reflexivity|]. intros k. unfold reaches. rewrite <- !meant_file, M, M2. cbn [means]. destruct (Nat.eqb n k) eqn:E; [|reflexivity]. apply Nat.eqb_eq in E as <-. unfold means. rewrite HD. reflexivity.
    + unfold close_noexcept in H. destruct (close_nth _ _ _ _) as (s1, q) eqn:C. assert (QU : q <> UB) by (destruct q; congruence). destruct (close_nth_spec _ _ _ _ _ _ C QU) as (O1 & L1 & [Q|Q] & W1); [|rewrite Q in H; discriminate H].
      rewrite Q in H. assert (s' = s1) as -> by congruence. assert (r = Ok None) as -> by congruence. cbn [wd_objs wd_pool] in O1, L1, W1.
      split; [unfold view_of_handles; cbn [follow fst snd]; rewrite O1, L1, <- meant_file, M2; reflexivity|]. split; [|intros; discriminate].
      intros k x N. destruct (W1 k x N) as (x' & N' & LN & _). exists x'. split; [exact N'|]. unfold reaches. rewrite <- !meant_file, M, M2. cbn [means]. rewrite Nat.eqb_sym. destruct (Nat.eqb k n) eqn:E; [|exact LN].
      apply Nat.eqb_eq in E as ->. unfold held in HD. cbn [wd_objs] in HD. unfold means. rewrite HD. cbn [andb negb]. rewrite <- Q. exact LN.
  - destruct (meant s i) as [n|] eqn:M; [|congruence]. destruct (nth_error (wd_pool s) n) as [w|] eqn:N; [|congruence]. destruct (wstep cd op w) as (w', q) eqn:W.
    assert (s' = mkHandles (replace_nth n w' (wd_pool s)) (wd_objs s)) as -> by congruence. assert (q = r) as -> by congruence.
    split; [unfold view_of_handles; cbn [wd_objs wd_pool follow fst snd]; now rewrite replace_length|]. split; [|intros; discriminate].
    intros k x K. unfold reaches. rewrite <- meant_file, M. cbn [means wd_pool]. destruct (Nat.eqb n k) eqn:E.
    + apply Nat.eqb_eq in E as <-. assert (x = w) as -> by congruence. exists w'. split; [apply replace_same; apply nth_error_Some; congruence|]. eapply lone_call; [exact W|apply lone_done].
    + apply Nat.eqb_neq in E. exists x. split; [now rewrite replace_other by exact E|apply lone_done].
  - destruct (meant s i) as [n|] eqn:M; [|congruence]. destruct (close_nth cd ods n s) as (s1, q) eqn:C. assert (s' = s1) as -> by congruence. assert (q = r) as -> by congruence.
    destruct (close_nth_spec _ _ _ _ _ _ C U) as (O1 & L1 & _ & W1). split; [unfold view_of_handles; cbn [follow fst snd]; now rewrite O1, L1|]. split; [|intros; discriminate].
    intros k x K. destruct (W1 k x K) as (x' & N' & LN & _). exists x'. split; [exact N'|]. unfold reaches. rewrite <- meant_file, M. cbn [means]. now rewrite Nat.eqb_sym.
  - destruct (meant s i) as [n|] eqn:M; [|congruence]. unfold close_noexcept in H at 1. destruct (close_nth cd ods n s) as (s1, q) eqn:C.
    assert (QU : q <> UB) by (destruct q; congruence). destruct (close_nth_spec _ _ _ _ _ _ C QU) as (O1 & L1 & [Q|Q] & W1); [|rewrite Q in H; discriminate H]. rewrite Q in H, W1.
    assert (R : wd_pool s' = wd_pool s1 /\ wd_objs s' = replace_nth i None (wd_objs s) /\ r = Ok None).
    { unfold released in H. destruct (held _ n).
      - assert (s' = mkHandles (wd_pool s1) (replace_nth i None (wd_objs s1))) as -> by congruence. cbn [wd_pool wd_objs]. rewrite O1. repeat split. congruence.
      - unfold close_noexcept in H. destruct (nth_error (wd_pool s) n) as [w|] eqn:N.
        2:{ exfalso. pose proof (B _ _ M) as X. apply nth_error_None in N. lia. }
        destruct (W1 n w N) as (w' & N' & _ & SH). specialize (SH eq_refl eq_refl).
        destruct (close_nth_shut cd ods n (mkHandles (wd_pool s1) (replace_nth i None (wd_objs s1))) w' N' SH) as (P1 & P2).
        set (x1 := mkHandles (wd_pool s1) (replace_nth i None (wd_objs s1))) in *. destruct (close_nth cd ods n x1) as (s2, q2) eqn:C2. cbn [fst snd wd_pool] in P1, P2. rewrite P2 in H. assert (s' = s2) as -> by congruence. assert (r = Ok None) as -> by congruence.
        assert (Q2 : q2 <> UB) by (rewrite P2; discriminate). destruct (close_nth_spec _ _ _ _ _ _ C2 Q2) as (O2 & _). unfold x1 in O2, P1. cbn [wd_objs wd_pool] in O2, P1. rewrite O2, O1. auto. }
    destruct R as (R1 & R2 & ->). split; [unfold view_of_handles; cbn [follow fst snd]; now rewrite R1, R2, L1|]. split; [|intros; discriminate].
    intros k x K. destruct (W1 k x K) as (x' & N' & LN & _). exists x'. rewrite R1. split; [exact N'|]. unfold reaches. rewrite <- meant_file, M. cbn [means]. now rewrite Nat.eqb_sym.
Qed.

(* what a program does *)
Lemma fresh_silent n m x : (forall i k, file_of m i = Some k -> (k < n)%nat) -> reaches n m x = [].
Proof.
  intros H. assert (F : forall i, means n (file_of m i) = false). { intros i. destruct (file_of m i) as [k|] eqn:E; [|reflexivity]. apply H in E. cbn [means]. apply Nat.eqb_neq. lia. }
  destruct x as ([| | | | |], r); cbn [reaches]; rewrite ?F; reflexivity.
Qed.
Lemma run_spec cd ods p : forall s t l, hrun cd ods p s = Some (t, l) -> no_ub l -> bounded s ->
  view_of_handles t = fold_left (fun m x => follow x m) l (view_of_handles s) /\ bounded t /\ map fst l = p /\
  length (wd_pool t) = (length (wd_pool s) + length (started l))%nat /\
  (forall n w, nth_error (wd_pool s) n = Some w -> exists w', nth_error (wd_pool t) n = Some w' /\ lone cd (ods n) (events_from n (view_of_handles s) l) w w') /\
  (forall n c v, nth_error (started l) n = Some (c, v) -> exists w0 w', open_writer None c v = Ok w0 /\ nth_error (wd_pool t) (length (wd_pool s) + n) = Some w' /\
     lone cd (ods (length (wd_pool s) + n)%nat) (events_from (length (wd_pool s) + n) (view_of_handles s) l) w0 w').
Proof.
  induction p as [|o p IH]; intros s t l H U B; cbn [hrun] in H.
  - assert (t = s) as -> by congruence. assert (l = []) as -> by congruence. cbn [fold_left map started flat_map length events_from]. split; [reflexivity|]. split; [exact B|]. split; [reflexivity|]. split; [lia|].
    split; [intros n w N; exists w; split; [exact N|apply lone_done]|]. intros [|n] c v N; discriminate N.
  - destruct (hstep cd ods o s) as [s1 r|] eqn:E; [|discriminate H].
    assert (UU : r = UB -> False). { intros ->. assert (l = [(o, UB)]) as -> by congruence. inversion U; subst. cbn in *. congruence. }
    assert (X : exists l', hrun cd ods p s1 = Some (t, l') /\ l = (o, r) :: l'). { destruct r; [| |elim (UU eq_refl)]; destruct (hrun cd ods p s1) as [(t', l')|]; try discriminate H; exists l'; assert (t' = t) as -> by congruence; split; congruence. }
    destruct X as (l' & H' & ->). clear H. assert (U' : no_ub l') by (inversion U; assumption).
    destruct (step_spec cd ods o s s1 r E UU B) as (V1 & B1 & W1 & N1). destruct (IH s1 t l' H' U' B1) as (V & BT & MF & LN & W & N). clear IH E H'.
    cbn [fold_left map fst events_from]. rewrite <- V1.
    assert (OP : exists new, started ((o, r) :: l') = new ++ started l' /\ length (wd_pool s1) = (length (wd_pool s) + length new)%nat /\
       (forall c v, nth_error new 0 = Some (c, v) -> exists w, open_writer None c v = Ok w /\ nth_error (wd_pool s1) (length (wd_pool s)) = Some w) /\ (length new <= 1)%nat).
    { pose proof (f_equal snd V1) as V2. cbn [view_of_handles snd] in V2. destruct o as [c v|?|?|?|?|?].
      2-6: exists []; split; [reflexivity|]; split; [rewrite V2; destruct r; cbn [follow view_of_handles fst snd length]; lia|]; split; [discriminate|]; cbn; lia.
      destruct r as [q| |]; [|exists []; split; [reflexivity|]; split; [rewrite V2; cbn [follow view_of_handles fst snd length]; lia|]; split; [discriminate|]; cbn; lia|elim UU; reflexivity].
      exists [(c, v)]. split; [reflexivity|]. split; [rewrite V2; cbn [follow view_of_handles fst snd length]; lia|]. split; [|cbn; lia].
      intros c' v' Q. cbn in Q. apply (N1 c' v' q); [congruence|reflexivity]. }
    destruct OP as (new & ON & LP & NW & LE). rewrite ON, app_length. split; [exact V|]. split; [exact BT|]. split; [now rewrite MF|]. split; [lia|]. split.
    + intros n w K. destruct (W1 n w K) as (w1 & K1 & L1). destruct (W n w1 K1) as (w2 & K2 & L2). exists w2. split; [exact K2|]. exact (lone_app _ _ _ _ _ _ _ L1 L2).
    + intros n c v K. assert (S0 : reaches (length (wd_pool s) + n) (wd_objs s) (o, r) = []). { apply fresh_silent. intros i k Q. assert (k < length (wd_pool s))%nat by (eapply B; exact Q). lia. }
      cbn [view_of_handles fst]. rewrite S0. cbn [app]. destruct new as [|(c1, v1) [|? ?]]; cbn [length] in *; [| |lia].
      * rewrite Nat.add_0_r in LP. rewrite <- LP. apply N. exact K.
      * destruct n as [|n].
        -- assert ((c1, v1) = (c, v)) as Q by (cbn in K; congruence). destruct (NW c1 v1 eq_refl) as (w & OW & KW). destruct (W _ _ KW) as (w' & K' & L'). exists w, w'. rewrite Nat.add_0_r. split; [congruence|]. split; [exact K'|exact L'].
        -- cbn [app nth_error] in K. replace (length (wd_pool s) + Datatypes.S n)%nat with (length (wd_pool s1) + n)%nat by lia. apply N. exact K.
Qed.

(* ---- one writer per file ---- *)
Lemma empty_bounded : bounded no_handles.
Proof. intros [|i] n H; discriminate H. Qed.
Lemma lone_calls cd od l : forall w w' e, lone cd od (calls l ++ e) w w' -> all_defined l -> exists w1, wrun cd (map fst l) w = (w1, l) /\ lone cd od e w1 w'.
Proof.
  induction l as [|(op, r) l IH]; intros w w' e L D; cbn [calls map app fst snd] in *.
  - exists w. auto.
  - inversion L as [|op0 r0 w0 w1 l0 w2 W L'|]; subst. destruct (IH w1 w' e L') as (w2 & R & L2); [inversion D; assumption|]. exists w2. split; [|exact L2]. cbn [wrun]. rewrite W, R.
    destruct r; [reflexivity|reflexivity|]. inversion D; subst. cbn in *. congruence.
Qed.
Lemma lone_closings cd od k : forall w w', b_open (w_base w) = false -> lone cd od (repeat (EClose (Ok None)) k) w w' -> w' = w.
Proof.
  induction k as [|k IH]; intros w w' O L; cbn [repeat] in L; inversion L; subst; [reflexivity|]. rewrite close_shut in * by exact O.
  match goal with H : (w, _) = _ |- _ => injection H as <- <- end. now apply IH.
Qed.
Lemma lone_session cd od c v e l w0 w : open_writer None c v = Ok w0 -> lone cd od e w0 w -> calls_first e l -> all_defined l -> session cd od c v (map fst l) l w.
Proof.
  intros O L (k & ->) D. apply lone_calls in L as (w1 & R & L); [|exact D]. inversion L as [| |r q w2 e' w3 C L' Q]; subst. destruct r as [[]| |]; try discriminate.
  pose proof (close_shuts _ _ _ _ _ C) as S. apply lone_closings in L'; [|exact S]. subst. exists w0, w1. auto.
Qed.
(* ---- a file that no object means any more is closed ---- *)
Lemma held_iff m n : existsb (means n) m = true <-> exists i, file_of m i = Some n.
Proof.
  rewrite existsb_exists. split.
  - intros (o & I & E). destruct o as [k|]; [|discriminate E]. apply Nat.eqb_eq in E as ->. apply In_nth_error in I as (i & I). exists i. unfold file_of. now rewrite I.
  - intros (i & E). unfold file_of in E. destruct (nth_error m i) as [[k|]|] eqn:N; try discriminate E. exists (Some k). split; [eapply nth_error_In; eassumption|]. cbn. apply Nat.eqb_eq. congruence.
Qed.
Definition shut (s : handles) : Prop := forall n w, nth_error (wd_pool s) n = Some w -> existsb (means n) (wd_objs s) = false -> b_open (w_base w) = false.
Lemma lone_nil cd od w w' : lone cd od [] w w' -> w' = w.
Proof. intros L. inversion L; subst; reflexivity. Qed.
Lemma lone_one cd od w w' : lone cd od [EClose (Ok None)] w w' -> b_open (w_base w') = false.
Proof. intros L. inversion L as [| |r q w1 e w2 C L' Q]; subst. apply lone_nil in L' as ->. destruct r as [[]| |]; try discriminate. eapply close_shuts; exact C. Qed.
Lemma held_app m o n : existsb (means n) (m ++ [o]) = false -> existsb (means n) m = false.
Proof. rewrite existsb_app. intros H. apply orb_false_elim in H. tauto. Qed.
Lemma held_replace m i o n : existsb (means n) (replace_nth i o m) = false -> means n (file_of m i) = false -> existsb (means n) m = false.
Proof.
  intros H E. destruct (existsb (means n) m) eqn:X; [|reflexivity]. apply held_iff in X as (j & J). destruct (Nat.eq_dec i j) as [->|D].
  - rewrite J in E. cbn in E. now rewrite Nat.eqb_refl in E.
  - rewrite <- H. symmetry. apply held_iff. exists j. unfold file_of in *. now rewrite replace_other by exact D.
Qed.
Lemma means_iff n o : means n o = true -> o = Some n.
Proof. destruct o as [k|]; [|discriminate]. cbn. intros H. apply Nat.eqb_eq in H. congruence. Qed.
Lemma step_shut cd ods o s s' r : hstep cd ods o s = Goes s' r -> r <> UB -> bounded s -> shut s -> shut s'.
Proof.
  intros H U B SH n w' N F. destruct (step_spec _ _ _ _ _ _ H U B) as (V & _ & W & NW). pose proof (f_equal fst V) as V1. pose proof (f_equal snd V) as V2. cbn [view_of_handles fst snd] in V1, V2. rewrite V1 in F. clear V V1 H.
  assert (HN : (exists c v q, o = HNew c v /\ r = Ok q) \/ length (wd_pool s') = length (wd_pool s)). { destruct o as [c v|?|?|?|?|?]; destruct r as [q| |]; eauto 10; right; rewrite V2; reflexivity. }
  destruct HN as [(c & v & q & -> & ->)|LP].
  - cbn [follow view_of_handles fst snd length] in F, V2. destruct (Nat.eq_dec n (length (wd_pool s))) as [->|D].
    + rewrite existsb_app in F. cbn [existsb means] in F. rewrite Nat.eqb_refl, !orb_true_r in F. discriminate F.
    + assert (L : (n < length (wd_pool s))%nat). { assert (n < length (wd_pool s'))%nat by (apply nth_error_Some; congruence). lia. }
      destruct (nth_error (wd_pool s) n) as [w|] eqn:K; [|apply nth_error_None in K; lia]. destruct (W n w K) as (w1 & K1 & L1). assert (w1 = w') as -> by congruence. cbn [reaches] in L1. apply lone_nil in L1 as ->.
      apply (SH n w K). now apply held_app in F.
  - assert (L : (n < length (wd_pool s))%nat). { rewrite <- LP. apply nth_error_Some. congruence. }
    destruct (nth_error (wd_pool s) n) as [w|] eqn:K; [|apply nth_error_None in K; lia]. destruct (W n w K) as (w1 & K1 & L1). assert (w1 = w') as -> by congruence. clear W NW K1.
    assert (CALL : forall i, existsb (means n) (wd_objs s) = false -> means n (file_of (wd_objs s) i) = false). { intros i Q. destruct (means n (file_of (wd_objs s) i)) eqn:E; [|reflexivity]. apply means_iff in E. rewrite <- Q. symmetry. apply held_iff. eauto. }
    destruct o as [c v|i|i j|i op|i|i]; cbn [follow view_of_handles fst reaches] in F, L1.
    + apply lone_nil in L1 as ->. apply (SH n w K). destruct r as [q| |]; cbn [fst] in F; [now apply held_app in F|exact F|exact F].
    + apply lone_nil in L1 as ->. apply (SH n w K). destruct r as [q| |]; cbn [fst] in F; [now apply held_app in F|exact F|exact F].
    + destruct r as [q| |]; cbn [fst] in F; [|rewrite CALL in L1 by exact F; apply lone_nil in L1 as ->; exact (SH n w K F)|congruence].
      destruct (means n (file_of (wd_objs s) i)) eqn:E.
      * rewrite F in L1. cbn [negb andb] in L1. inversion L1 as [| |r0 q0 w1 e w2 C L' Q]; subst. apply lone_nil in L' as ->. destruct r0 as [[]| |]; try discriminate. eapply close_shuts; exact C.
      * cbn [andb] in L1. apply lone_nil in L1 as ->. apply (SH n w K). eapply held_replace; eauto.
    + rewrite CALL in L1 by (destruct r; exact F). apply lone_nil in L1 as ->. apply (SH n w K). destruct r; exact F.
    + rewrite CALL in L1 by (destruct r; exact F). apply lone_nil in L1 as ->. apply (SH n w K). destruct r; exact F.
    + destruct r as [q| |]; cbn [fst] in F; [|rewrite CALL in L1 by exact F; apply lone_nil in L1 as ->; exact (SH n w K F)|congruence].
      destruct (means n (file_of (wd_objs s) i)) eqn:E.
      * inversion L1 as [| |r0 q0 w1 e w2 C L' Q]; subst. apply lone_nil in L' as ->. destruct r0 as [[]| |]; try discriminate. eapply close_shuts; exact C.
      * apply lone_nil in L1 as ->. apply (SH n w K). eapply held_replace; eauto.
Qed.
Lemma run_shut cd ods p : forall s t l, hrun cd ods p s = Some (t, l) -> no_ub l -> bounded s -> shut s -> shut t.
Proof.
  induction p as [|o p IH]; intros s t l H U B SH; cbn [hrun] in H; [assert (t = s) as -> by congruence; exact SH|].
  destruct (hstep cd ods o s) as [s1 r|] eqn:E; [|discriminate H]. destruct r as [q| |] eqn:R.
  3:{ exfalso. assert (l = [(o, UB)]) as -> by congruence. inversion U; subst. cbn in *. congruence. }
  1-2: destruct (hrun cd ods p s1) as [(t', l')|] eqn:H'; [|discriminate H]; assert (t' = t) as -> by congruence; assert (no_ub l') by (match type of H with Some (_, ?x) = _ => assert (l = x) as -> by congruence end; inversion U; assumption);
    (eapply IH; [exact H'|assumption|eapply step_spec; [exact E|discriminate|exact B]|eapply step_shut; [exact E|discriminate|exact B|exact SH]]).
Qed.
Lemma write_chunk_open cd h d n c b b' r : write_chunk cd h d n c b = (b', r) -> b_open b' = b_open b.
Proof.
  unfold write_chunk. intros H. destruct (_ <=? 0); [congruence|]. destruct (if c then _ else _) as [(x, m)| |]; [|congruence..]. cbv zeta in H.
  destruct (tell64 (put x (b_out b)) <=? 0); [apply (f_equal fst) in H; cbn in H; rewrite <- H; reflexivity|]. destruct (_ <? _); apply (f_equal fst) in H; cbn in H; rewrite <- H; reflexivity.
Qed.
Lemma do_add_open cd k d n c pg w w' r : do_add_node cd k d n c pg w = (w', r) -> b_open (w_base w') = b_open (w_base w).
Proof.
  unfold do_add_node. intros H. destruct (_ || _); [congruence|]. destruct (negb _); [congruence|]. destruct (write_chunk _ _ _ _ _ _) as (b, [((off, sz), m)| |]) eqn:E; apply write_chunk_open in E; cbv zeta in H; apply (f_equal (fun x => b_open (w_base (fst x)))) in H; cbn [fst w_base with_base] in H; congruence.
Qed.
Lemma add_open cd k d pg w w' r : add_node cd k d pg w = (w', r) -> b_open (w_base w') = b_open (w_base w).
Proof. unfold add_node. intros H. destruct d; [congruence|]. destruct (_ =? 0); [congruence|]. destruct (negb _); [congruence|]. eapply do_add_open; exact H. Qed.
Lemma step_keeps_open cd op w w' r : wstep cd op w = (w', r) -> b_open (w_base w') = b_open (w_base w).
Proof.
  destruct op; cbn [wstep]; intros H.
  - unfold some_node in H. destruct (add_node _ _ _ _ _) as (w1, q) eqn:E. apply add_open in E. destruct q; congruence.
  - unfold some_node in H. destruct (add_node_points _ _ _ _ _ _) as (w1, q) eqn:E. assert (X : b_open (w_base w1) = b_open (w_base w)); [|destruct q; congruence].
    unfold add_node_points in E. destruct (c_pts _); [congruence|]. destruct (_ || _); [congruence|]. destruct (points_pack _ _ _ _); [|congruence..]. eapply add_open; exact E.
  - unfold some_node in H. destruct (add_node_compressed _ _ _ _ _ _) as (w1, q) eqn:E. assert (X : b_open (w_base w1) = b_open (w_base w)); [|destruct q; congruence].
    unfold add_node_compressed in E. destruct (_ =? 0); [congruence|]. eapply do_add_open; exact E.
  - destruct (change_node_page k page w) as (w1, q) eqn:E. assert (X : w_base w1 = w_base w); [|destruct q; congruence].
    unfold change_node_page in E. repeat match type of E with context [if ?b then _ else _] => destruct b; [congruence|] | context [match mget ?a ?b with _ => _ end] => destruct (mget a b); [|try congruence] end.
    all: try (apply (f_equal (fun x => w_base (fst x))) in E; cbn [fst w_base] in E; congruence).
    all: cbv zeta in E; destruct (mget _ _); apply (f_equal (fun x => w_base (fst x))) in E; cbn [fst w_base] in E; congruence.
  - destruct (edit_header _ _); apply (f_equal (fun x => b_open (w_base (fst x)))) in H; cbn [fst w_base with_cfg] in H; congruence.
  - apply (f_equal (fun x => b_open (w_base (fst x)))) in H. cbn [fst w_base with_cfg] in H. congruence.
  - destruct (set_nth _ _ _); apply (f_equal (fun x => b_open (w_base (fst x)))) in H; cbn [fst w_base with_cfg] in H; congruence.
Qed.
Lemma silent_run cd ods p n : forall s t l, hrun cd ods p s = Some (t, l) -> no_ub l -> bounded s -> (n < length (wd_pool s))%nat -> existsb (means n) (wd_objs s) = false -> events_from n (view_of_handles s) l = [].
Proof.
  induction p as [|o p IH]; intros s t l H U B LT F; cbn [hrun] in H; [assert (l = []) as -> by congruence; reflexivity|].
  destruct (hstep cd ods o s) as [s1 r|] eqn:E; [|discriminate H]. destruct r as [q| |] eqn:R.
  3:{ exfalso. assert (l = [(o, UB)]) as -> by congruence. inversion U; subst. cbn in *. congruence. }
  1-2: destruct (hrun cd ods p s1) as [(t', l')|] eqn:H'; [|discriminate H]; rewrite <- R in *; assert (RU : r <> UB) by (rewrite R; discriminate); assert (l = (o, r) :: l') as -> by congruence; assert (U' : no_ub l') by (inversion U; assumption);
    destruct (step_spec _ _ _ _ _ _ E RU B) as (V & B1 & _);
    assert (CALL : forall i, means n (file_of (wd_objs s) i) = false) by (intros i; destruct (means n (file_of (wd_objs s) i)) eqn:X; [|reflexivity]; apply means_iff in X; rewrite <- F; symmetry; apply held_iff; eauto);
    cbn [events_from]; rewrite <- V; pose proof (f_equal fst V) as V1; pose proof (f_equal snd V) as V2; cbn [view_of_handles fst snd] in V1, V2;
    (assert (RE : reaches n (wd_objs s) (o, r) = []) by (destruct o; cbn [reaches]; rewrite ?CALL; reflexivity));
    cbn [view_of_handles fst]; rewrite RE; cbn [app]; apply (IH s1 t' l' H' U' B1);
    [rewrite V2; destruct o; rewrite R; cbn [follow view_of_handles fst snd]; lia|].
  all: rewrite V1; destruct (existsb (means n) (fst (follow (o, r) (view_of_handles s)))) eqn:X; [|reflexivity]; exfalso; apply held_iff in X as (i & X);
    assert (NO : forall j, file_of (wd_objs s) j <> Some n) by (intros j Q; specialize (CALL j); rewrite Q in CALL; cbn in CALL; now rewrite Nat.eqb_refl in CALL);
    rewrite R in X; destruct o; cbn [follow view_of_handles fst snd] in X; try (now apply NO in X).
  - apply file_of_app in X as [X|X]; [now apply NO in X|assert (length (wd_pool s) = n) by congruence; lia].
  - apply file_of_app in X as [X|X]; now apply NO in X.
  - apply file_of_replace in X as [X|X]; now apply NO in X.
  - apply file_of_replace in X as [X|X]; [now apply NO in X|discriminate X].
Qed.
Lemma table_open cd poff b b' r : write_chunk_table cd poff b = (b', r) -> b_open b' = b_open b.
Proof. unfold write_chunk_table. intros H. cbv zeta in H. destruct (UINT32_MAX <? _); apply (f_equal (fun x => b_open (fst x))) in H; cbn [fst b_open emit with_out] in H; congruence. Qed.
Lemma wkt_open s b : b_open (write_wkt s b) = b_open b.
Proof. destruct s; reflexivity. Qed.
Lemma page_open od k w w' r : write_page od k w = (w', r) -> b_open (w_base w') = b_open (w_base w).
Proof.
  unfold write_page. intros H. destruct (mget k (w_pages w)) as [p|]; [|apply (f_equal (fun x => b_open (w_base (fst x)))) in H; cbn in H; congruence]. cbv zeta in H.
  destruct (INT32_MAX <? _); [apply (f_equal (fun x => b_open (w_base (fst x)))) in H; cbn [fst w_base b_open emit with_out] in H; congruence|].
  apply (f_equal (fun x => b_open (w_base (fst x)))) in H. destruct (key_eqb k root_key); cbn [fst w_base with_base with_cfg b_open emit with_out] in H; congruence.
Qed.
Lemma each_open {A} (f : A -> writer -> writer * outcome unit) l : (forall a (s s' : writer) r, f a s = (s', r) -> b_open (w_base s') = b_open (w_base s)) -> forall w w' r, each f l w = (w', r) -> b_open (w_base w') = b_open (w_base w).
Proof.
  intros F. induction l as [|a l IH]; intros w w' r H; cbn [each] in H; [apply (f_equal (fun x => b_open (w_base (fst x)))) in H; cbn in H; congruence|]. unfold then_ in H. destruct (f a w) as (w1, [?| |]) eqn:E; apply F in E.
  - apply IH in H. congruence.
  - apply (f_equal (fun x => b_open (w_base (fst x)))) in H; cbn in H; congruence.
  - apply (f_equal (fun x => b_open (w_base (fst x)))) in H; cbn in H; congruence.
Qed.
Lemma tree_open od fuel : forall k w w' r, write_page_tree fuel od k w = (w', r) -> b_open (w_base w') = b_open (w_base w).
Proof.
  induction fuel as [|f IH]; intros k w w' r H; cbn [write_page_tree] in H; [apply (f_equal (fun x => b_open (w_base (fst x)))) in H; cbn in H; congruence|].
  destruct (mget k (w_pages w)) as [p|]; [|apply (f_equal (fun x => b_open (w_base (fst x)))) in H; cbn in H; congruence]. unfold then_ in H. destruct (each _ _ w) as (w1, [?| |]) eqn:E; apply each_open in E; try exact IH.
  - apply page_open in H. congruence.
  - apply (f_equal (fun x => b_open (w_base (fst x)))) in H; cbn in H; congruence.
  - apply (f_equal (fun x => b_open (w_base (fst x)))) in H; cbn in H; congruence.
Qed.
Lemma header_open poff w w' r : copc_write_header poff w = (w', r) -> b_open (w_base w') = b_open (w_base w).
Proof.
  unfold copc_write_header. intros H. cbv zeta in H. destruct (write_las_header _ _ _ _) as (b, q) eqn:E.
  assert (X : b_open b = b_open (w_base w)). { unfold write_las_header in E. destruct (bind _ _); apply (f_equal (fun x => b_open (fst x))) in E; cbn [fst b_open emit with_out] in E; congruence. }
  destruct q; [destruct (copc_vlrs _); [destruct (poff <? _)|..]|..]; apply (f_equal (fun x => b_open (w_base (fst x)))) in H; cbn [fst w_base with_base b_open emit with_out] in H; congruence.
Qed.
Lemma close_cases cd od w w' r : close cd od w = (w', r) -> (r = Ok tt /\ b_open (w_base w') = false) \/ b_open (w_base w') = b_open (w_base w).
Proof.
  unfold close. intros H. destruct (b_open (w_base w)) eqn:O; cbn [negb] in H; [|left; split; [congruence|]; assert (w' = w) as -> by congruence; exact O].
  destruct (copc_offset _) as [poff| |]; [|right; assert (w' = w) as -> by congruence; exact O..]. destruct (write_chunk_table _ _ _) as (b, [?| |]) eqn:T; apply table_open in T.
  2-3: right; apply (f_equal (fun x => b_open (w_base (fst x)))) in H; cbn [fst w_base with_base] in H; congruence.
  cbv zeta in H. destruct (compute_hierarchy _ _) as [pages| |].
  2-3: right; apply (f_equal (fun x => b_open (w_base (fst x)))) in H; cbn [fst w_base with_base b_open with_out] in H; congruence.
  unfold then_ in H. destruct (write_page_tree _ _ _ _) as (w2, [?| |]) eqn:P; apply tree_open in P; cbn [w_base with_base b_open with_out] in P.
  2-3: right; apply (f_equal (fun x => b_open (w_base (fst x)))) in H; cbn [fst] in H; congruence.
  destruct (copc_write_header _ _) as (w3, [?| |]) eqn:Q; apply header_open in Q; cbn [w_base with_base] in Q; rewrite wkt_open in Q.
  2-3: right; apply (f_equal (fun x => b_open (w_base (fst x)))) in H; cbn [fst] in H; congruence.
  left. split; [congruence|]. apply (f_equal (fun x => b_open (w_base (fst x)))) in H. cbn [fst w_base with_base b_open] in H. congruence.
Qed.
Lemma events_logged n l : forall m op r, In (ECall op r) (events_from n m l) -> exists i, In (HCall i op, r) l.
Proof.
  induction l as [|(o, q) l IH]; intros m op r H; cbn [events_from] in H; [destruct H|]. apply in_app_or in H as [H|H].
  - destruct o; cbn [reaches] in H; repeat match type of H with In _ (if ?b then _ else _) => destruct b end; cbn [In] in H; try contradiction; destruct H as [H|H]; try contradiction; try discriminate H.
    exists i. left. congruence.
  - destruct (IH _ _ _ H) as (i & I). exists i. now right.
Qed.
Lemma calls_logged n l e lg : calls_first e lg -> e = events n l -> forall x, In x lg -> exists i, In (HCall i (fst x), snd x) l.
Proof.
  intros (k & ->) E x X. apply (events_logged n l ([], O)). change (events_from n ([], O) l) with (events n l). rewrite <- E. apply in_or_app. left. unfold calls. now apply (in_map (fun x => ECall (fst x) (snd x))) in X.
Qed.
