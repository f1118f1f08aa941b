(* ProofPoints3.v - array getters / setters of Points (C13) *)
From Verif Require Import BaseFacts ModelFloat ModelKey ModelGeom ModelPoint SpecPoint ModelPoints SpecPoints
  ProofFloat ProofPoint ProofPoint2 ProofScale ProofPoints.
From Coq Require Import ZifyBool ZifyNat.
Open Scope Z_scope.

Lemma array_set_loop_nodup {V} (f : V -> point -> outcome point) l : forall h h',
  NoDup (map fst l) -> array_set_loop f l h = Ok h' ->
  length h' = length h /\ (forall a, ~ In a (map fst l) -> nth_error h' a = nth_error h a) /\
  (forall a v, In (a, v) l -> exists p q, nth_error h a = Some p /\ f v p = Ok q /\ nth_error h' a = Some q).
Proof.
  induction l as [|(a, v) l IH]; intros h h' ND H.
  - cbn in H. injection H as <-. repeat split; auto. intros a v [].
  - cbn [array_set_loop] in H. destruct (hget h a) as [p| |] eqn:E; cbn [bind] in H; try discriminate.
    apply hget_ok in E. destruct (f v p) as [q| |] eqn:Eq; cbn [bind] in H; try discriminate.
    cbn in ND. inversion ND as [|? ? Na ND']; subst. destruct (IH _ _ ND' H) as (L & Ho & Hi).
    split; [now rewrite L, hset_length|]. split.
    + cbn. intros b Hb. rewrite Ho by tauto. apply nth_hset_ne. intros ->. tauto.
    + intros b w [C|C].
      * injection C as <- <-. exists p, q. split; auto. split; auto. rewrite Ho by auto. eapply nth_hset_eq; eauto.
      * destruct (Hi b w C) as (p' & q' & Hp' & Ef & Hq'). exists p', q'. split; auto.
        rewrite nth_hset_ne in Hp'; auto. intros ->. apply Na. apply in_map_iff. exists (b, w). auto.
Qed.

(* a throwing setter throws at its first element: nothing was changed before *)
Lemma array_set_loop_total {V} (f : V -> point -> outcome point) (P : point -> Prop) l :
  (forall v p, P p -> In v (map snd l) -> exists q, f v p = Ok q /\ P q) -> forall h,
  (forall a, In a (map fst l) -> exists p, nth_error h a = Some p /\ P p) ->
  exists h', array_set_loop f l h = Ok h'.
Proof.
  induction l as [|(a, v) l IH]; intros HP h Hh; [cbn; eauto|].
  cbn [array_set_loop]. destruct (Hh a) as (p & Ep & Pp); [now left|].
  replace (hget h a) with (Ok p) by (symmetry; now apply hget_ok). cbn [bind].
  destruct (HP v p Pp) as (q & Eq & Pq); [now left|]. rewrite Eq. cbn [bind]. apply IH.
  - intros w x Px Hw. apply HP; auto. now right.
  - intros b Hb. destruct (Nat.eq_dec a b) as [<-|N].
    + exists q. split; auto. eapply nth_hset_eq; eauto.
    + rewrite nth_hset_ne by auto. apply Hh. now right.
Qed.

Lemma mapM_nth {A B} (f : A -> outcome B) l : forall bs, length bs = length l ->
  (forall i a b, nth_error l i = Some a -> nth_error bs i = Some b -> f a = Ok b) -> mapM f l = Ok bs.
Proof.
  induction l as [|a l IH]; intros [|b bs] L H; cbn in L; try discriminate; [reflexivity|].
  cbn [mapM]. rewrite (H 0%nat a b) by reflexivity. cbn [bind]. rewrite (IH bs); [reflexivity|lia|].
  intros i x y Hx Hy. apply (H (S i)); auto.
Qed.

Lemma nth_combine_In {A B} (l : list A) : forall (m : list B) i a b,
  nth_error l i = Some a -> nth_error m i = Some b -> In (a, b) (combine l m).
Proof.
  induction l as [|x l IH]; intros [|y m] [|i] a b Ha Hb; cbn in *; try discriminate.
  - injection Ha as <-. injection Hb as <-. now left.
  - right. eapply IH; eauto.
Qed.

Lemma array_f_spec d h c vs : uniform h c -> NoDup (c_pts c) -> length vs = length (c_pts c) ->
  exists h', array_set_f d vs h c = Ok h' /\ array_get_f d h' c = Ok vs /\ length h' = length h /\
    (forall a, ~ In a (c_pts c) -> nth_error h' a = nth_error h a) /\
    (forall i a v, nth_error (c_pts c) i = Some a -> nth_error vs i = Some v ->
       exists p, nth_error h a = Some p /\ nth_error h' a = Some (fdim_set d v p)).
Proof.
  intros U ND L. unfold array_set_f, array_set. rewrite L, Nat.eqb_refl. cbn [negb].
  assert (Mf : map fst (combine (c_pts c) vs) = c_pts c) by (apply map_fst_combine; auto).
  destruct (array_set_loop_total (fun v p => Ok (fdim_set d v p)) (fun _ => True) (combine (c_pts c) vs)) with (h := h) as (h' & E).
  { intros v p _ _. eauto. }
  { rewrite Mf. intros a Ha. destruct (U a Ha) as (p & Hp & _). eauto. }
  exists h'. split; [exact E|]. apply array_set_loop_nodup in E; [|now rewrite Mf]. rewrite Mf in E.
  destruct E as (L' & Ho & Hi).
  assert (Hi' : forall i a v, nth_error (c_pts c) i = Some a -> nth_error vs i = Some v ->
       exists p, nth_error h a = Some p /\ nth_error h' a = Some (fdim_set d v p)).
  { intros i a v Ha Hv. destruct (Hi a v (nth_combine_In _ _ _ _ _ Ha Hv)) as (p & q & Hp & Eq & Hq). injection Eq as <-. eauto. }
  split; [|auto]. unfold array_get_f. apply mapM_nth; auto. intros i a v Ha Hv.
  destruct (Hi' i a v Ha Hv) as (p & Hp & Hq). replace (hget h' a) with (Ok (fdim_set d v p)) by (symmetry; now apply hget_ok).
  cbn [bind]. destruct d; reflexivity.
Qed.

Definition colour (d : zdim) : bool := match d with DClass | DSrc => false | _ => true end.

Lemma zdim_set_total d v p : wf_point p -> (colour d = true -> p_fmt p <> 6) ->
  exists q, zdim_set d v p = Ok q /\ (zdim_arg d v -> zdim_get d q = Ok v).
Proof.
  intros W Hc. assert (Rgb : colour d = true -> p_has_rgb p = true).
  { intros C. destruct W as (Hf & _ & _ & _ & _ & _ & _ & _ & _ & _ & _ & _ & _ & _ & _ & Hr & _). rewrite Hr. specialize (Hc C). lia. }
  destruct d; cbn [zdim_set zdim_get zdim_arg colour] in *.
  - eexists. split; [reflexivity|]. reflexivity.
  - eexists. split; [reflexivity|]. intros H. cbn [with_src p_src]. f_equal. apply to_u_id; lia.
  - unfold set_red, get_red. rewrite Rgb by auto. eexists. split; [reflexivity|]. cbn. rewrite Rgb by auto. reflexivity.
  - unfold set_green, get_green. rewrite Rgb by auto. eexists. split; [reflexivity|]. cbn. rewrite Rgb by auto. reflexivity.
  - unfold set_blue, get_blue. rewrite Rgb by auto. eexists. split; [reflexivity|]. cbn. rewrite Rgb by auto. reflexivity.
Qed.

Lemma array_z_spec d h c vs : Forall wf_point h -> uniform h c -> NoDup (c_pts c) -> length vs = length (c_pts c) ->
  Forall (zdim_arg d) vs -> (colour d = true -> c_fmt c <> 6) ->
  exists h', array_set_z d vs h c = Ok h' /\ array_get_z d h' c = Ok vs /\ length h' = length h /\
    (forall a, ~ In a (c_pts c) -> nth_error h' a = nth_error h a) /\
    (forall i a v, nth_error (c_pts c) i = Some a -> nth_error vs i = Some v ->
       exists p q, nth_error h a = Some p /\ zdim_set d v p = Ok q /\ nth_error h' a = Some q).
Proof.
  intros W U ND L FA Hc. unfold array_set_z, array_set. rewrite L, Nat.eqb_refl. cbn [negb].
  assert (Mf : map fst (combine (c_pts c) vs) = c_pts c) by (apply map_fst_combine; auto).
  assert (Ms : map snd (combine (c_pts c) vs) = vs) by (apply map_snd_combine; auto).
  destruct (array_set_loop_total (zdim_set d) (fun p => wf_point p /\ (colour d = true -> p_fmt p <> 6)) (combine (c_pts c) vs)) with (h := h) as (h' & E).
  { rewrite Ms. intros v p (Wp & Cp) Hv. destruct (zdim_set_total d v p Wp Cp) as (q & Eq & _). exists q. split; auto.
    rewrite Forall_forall in FA. destruct (zdim_set_wf d v p q (FA v Hv) Wp Eq) as (Wq & F & _). split; auto. now rewrite F. }
  { rewrite Mf. intros a Ha. destruct (U a Ha) as (p & Hp & Ef & _). exists p. split; auto. split; [eapply nth_Forall; eauto|]. now rewrite Ef. }
  exists h'. split; [exact E|]. apply array_set_loop_nodup in E; [|now rewrite Mf]. rewrite Mf in E.
  destruct E as (L' & Ho & Hi).
  assert (Hi' : forall i a v, nth_error (c_pts c) i = Some a -> nth_error vs i = Some v ->
       exists p q, nth_error h a = Some p /\ zdim_set d v p = Ok q /\ nth_error h' a = Some q).
  { intros i a v Ha Hv. apply (Hi a v). eapply nth_combine_In; eauto. }
  split; [|auto]. unfold array_get_z. apply mapM_nth; auto. intros i a v Ha Hv.
  destruct (Hi' i a v Ha Hv) as (p & q & Hp & Eq & Hq). replace (hget h' a) with (Ok q) by (symmetry; now apply hget_ok).
  cbn [bind]. destruct (U a (nth_error_In _ _ Ha)) as (p' & Hp' & Ef & _). assert (p' = p) by congruence. subst p'.
  destruct (zdim_set_total d v p) as (q' & Eq' & G); [eapply nth_Forall; eauto|now rewrite Ef|].
  assert (q' = q) by congruence. subst q'. apply G. rewrite Forall_forall in FA. apply FA. eapply nth_error_In; eauto.
Qed.

(* where the throw happens *)
Lemma array_set_wrong_length {V} (f : V -> point -> outcome point) vs h c :
  length vs <> length (c_pts c) -> array_set f vs h c = Throw.
Proof. intros H. unfold array_set. apply Nat.eqb_neq in H. now rewrite H. Qed.

Lemma array_colour_throws d h c vs a l : Forall wf_point h -> uniform h c -> c_pts c = a :: l ->
  length vs = length (c_pts c) -> colour d = true -> c_fmt c = 6 ->
  exists p v vs', vs = v :: vs' /\ nth_error h a = Some p /\ zdim_set d v p = Throw /\ array_set_z d vs h c = Throw.
Proof.
  intros W U Ec L Cd F6. destruct (U a) as (p & Hp & Ef & _); [rewrite Ec; now left|].
  rewrite Ec in L. destruct vs as [|v vs']; [discriminate|]. exists p, v, vs'. split; auto. split; auto.
  assert (Hr : p_has_rgb p = false).
  { pose proof (nth_Forall _ _ _ _ W Hp) as (Hf & _ & _ & _ & _ & _ & _ & _ & _ & _ & _ & _ & _ & _ & _ & Hr & _). rewrite Hr. lia. }
  assert (T : zdim_set d v p = Throw).
  { destruct d; try discriminate; cbn [zdim_set]; unfold set_red, set_green, set_blue; now rewrite Hr. }
  split; auto. unfold array_set_z, array_set. rewrite Ec, L, Nat.eqb_refl. cbn [negb combine array_set_loop].
  replace (hget h a) with (Ok p) by (symmetry; now apply hget_ok). cbn [bind]. now rewrite T.
Qed.

(* ---- C12 odds and ends ---- *)
Lemma mismatch_rejected h c a p : nth_error h a = Some p ->
  ~ (p_fmt p = c_fmt c /\ p_reclen p = c_reclen c) ->
  add_point h c a = Throw /\ forall l l' c', add_points_vec h c (l ++ a :: l') <> Ok c'.
Proof.
  intros Hp N.
  assert (F : fits h c a = Ok false).
  { unfold fits. replace (hget h a) with (Ok p) by (symmetry; now apply hget_ok). cbn [bind]. f_equal.
    destruct (Z.eqb_spec (p_fmt p) (c_fmt c)), (Z.eqb_spec (p_reclen p) (c_reclen c)); cbn; auto. exfalso; auto. }
  split; [unfold add_point; now rewrite F|].
  intros l l' c' H. unfold add_points_vec in H.
    destruct (all_fit h c (l ++ a :: l')) as [[]| |] eqn:E; cbn [bind] in H; try discriminate.
    destruct (all_fit_ok _ _ _ E a) as (q & Hq & Q); [apply in_elt|]. assert (q = p) by congruence. subst. auto.
Qed.

Lemma long_records_break p : new_point 6 65500 = Ok p ->
  exists h c, points_to_format 8 [p] (mkPoints 6 65530 [0%nat]) = Ok (h, c) /\ uniform [p] (mkPoints 6 65530 [0%nat]) /\
  ~ uniform h c.
Proof.
  intros E. rewrite new_point_ok in E by lia. injection E as <-.
  set (p := mkPoint _ _ _ _ _ _ _ _ _ _ _ _ _ _ _ _ _ _ _ _).
  assert (Wp : wf_point p).
  { apply (new_point_wf 6 65500); [lia|]. rewrite new_point_ok by lia. reflexivity. }
  assert (Le : Z.of_nat (length (p_eb p)) = 65500).
  { unfold p. cbn [p_eb]. unfold zeros. rewrite repeat_length. lia. }
  unfold points_to_format. cbn [orb c_pts for_each hget nth_error bind].
  change ((8 <? 6) || (8 <? 8)) with false. cbv iota.
  destruct (to_point_format_spec 8 p Wp ltac:(lia)) as (q & Eq & Wq & Fq & Rq & _). rewrite Eq. cbn [bind].
  cbn [c_fmt]. rewrite las_base_ok by lia. cbn [bind]. rewrite point_byte_size_ok by lia. cbn [bind hset c_reclen].
  do 2 eexists. split; [reflexivity|]. split.
  - intros a [<-|[]]. exists p. split; [reflexivity|]. split; reflexivity.
  - intros U. destruct (U 0%nat (or_introl eq_refl)) as (x & Hx & _ & Hr). cbn in Hx. injection Hx as <-.
    cbn [c_reclen] in Hr. rewrite Rq, Le in Hr.
    change (to_u 16 (las_base 8 + to_u 16 (to_u 32 (65530 - las_base 6)))) with 2 in Hr.
    unfold las_base in Hr. cbn in Hr. lia.
Qed.

Lemma src_truncated : exists p, wf_point p /\ p_src p = 300 /\
  array_get_z DSrc [p] (mkPoints 6 30 [0%nat]) = Ok [44].
Proof.
  exists (mkPoint 6 30 f0 f0 f0 0 0 0 0 0 0 300 f0 0 0 0 0 false false []).
  split; [|split; reflexivity]. unfold wf_point. cbn. repeat split; try lia. constructor.
Qed.
