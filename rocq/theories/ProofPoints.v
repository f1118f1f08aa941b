(* ProofPoints.v - proofs about the Points container (C11-C13) *)
From Verif Require Import BaseFacts ModelFloat ModelKey ModelGeom ModelPoint SpecPoint ModelPoints SpecPoints
  ProofFloat ProofPoint ProofPoint2 ProofScale.
From Coq Require Import ZifyBool ZifyNat.
Open Scope Z_scope.

(* ---- heap ---- *)
Lemma hget_ok h a p : hget h a = Ok p <-> nth_error h a = Some p.
Proof. unfold hget. destruct (nth_error h a); split; congruence. Qed.
Lemma hset_length h : forall a p, length (hset h a p) = length h.
Proof. induction h as [|q h IH]; intros [|a] p; cbn; auto. Qed.
Lemma nth_hset_eq h : forall a p q, nth_error h a = Some q -> nth_error (hset h a p) a = Some p.
Proof. induction h as [|x h IH]; intros [|a] p q H; cbn in *; try discriminate; auto. eapply IH; eauto. Qed.
Lemma nth_hset_ne h : forall a b p, a <> b -> nth_error (hset h a p) b = nth_error h b.
Proof. induction h as [|x h IH]; intros [|a] [|b] p H; cbn; auto; try congruence. Qed.
Lemma nth_app_some (h : heap) a p t : nth_error h a = Some p -> nth_error (h ++ t) a = Some p.
Proof. intros H. rewrite nth_error_app1; auto. apply nth_error_Some. congruence. Qed.
Lemma nth_app_last (h : heap) p : nth_error (h ++ [p]) (length h) = Some p.
Proof. rewrite nth_error_app2 by lia. now rewrite Nat.sub_diag. Qed.
Lemma hset_Forall (P : point -> Prop) h : forall a p, Forall P h -> P p -> Forall P (hset h a p).
Proof. induction h as [|x h IH]; intros [|a] p F Hp; cbn; auto; inversion F; subst; constructor; auto. Qed.
Lemma nth_Forall (P : point -> Prop) h a p : Forall P h -> nth_error h a = Some p -> P p.
Proof. intros F H. rewrite Forall_forall in F. apply F. eapply nth_error_In; eauto. Qed.

Lemma set_nth_In {A} (l : list A) : forall n x y, In y (set_nth l n x) -> y = x \/ In y l.
Proof. induction l as [|z l IH]; intros [|n] x y H; cbn in *; auto; destruct H; auto. destruct (IH _ _ _ H); auto. Qed.
Lemma set_nth_nth_ne {A} (l : list A) : forall n m x, n <> m -> nth_error (set_nth l n x) m = nth_error l m.
Proof. induction l as [|z l IH]; intros [|n] [|m] x H; cbn; auto; congruence. Qed.
Lemma set_nth_nth_eq {A} (l : list A) : forall n x y, nth_error l n = Some y -> nth_error (set_nth l n x) n = Some x.
Proof. induction l as [|z l IH]; intros [|n] x y H; cbn in *; auto; try discriminate. eapply IH; eauto. Qed.
Lemma set_nth_length {A} (l : list A) : forall n x, length (set_nth l n x) = length l.
Proof. induction l as [|z l IH]; intros [|n] x; cbn; auto. Qed.

(* ---- uniformity ---- *)
Definition cont_ok (h : heap) (c : points) : Prop := uniform h c /\ 6 <= c_fmt c <= 8.
Definition ps_inv (s : pstate) : Prop :=
  Forall wf_point (st_heap s) /\ Forall (cont_ok (st_heap s)) (st_conts s).

Lemma uniform_app h t c : uniform h c -> uniform (h ++ t) c.
Proof. intros U a Ha. destruct (U a Ha) as (p & H & E). exists p. split; auto. now apply nth_app_some. Qed.
Lemma cont_ok_app h t c : cont_ok h c -> cont_ok (h ++ t) c.
Proof. intros (U & F). split; auto. now apply uniform_app. Qed.

Lemma uniform_hset h a p q c : nth_error h a = Some p -> p_fmt q = p_fmt p -> p_reclen q = p_reclen p ->
  uniform h c -> uniform (hset h a q) c.
Proof.
  intros Ha Ef Er U b Hb. destruct (U b Hb) as (x & Hx & E1 & E2).
  destruct (Nat.eq_dec a b) as [->|N].
  - exists q. split; [eapply nth_hset_eq; eauto|]. assert (x = p) by congruence. subst. now rewrite Ef, Er.
  - exists x. split; auto. now rewrite nth_hset_ne.
Qed.

Lemma fits_true h c a : fits h c a = Ok true ->
  exists p, nth_error h a = Some p /\ p_fmt p = c_fmt c /\ p_reclen p = c_reclen c.
Proof.
  unfold fits. destruct (hget h a) as [p| |] eqn:E; cbn; intros H; try discriminate. exists p.
  apply hget_ok in E. injection H as H. split; auto. lia.
Qed.
Lemma all_fit_ok h c l : all_fit h c l = Ok tt ->
  forall a, In a l -> exists p, nth_error h a = Some p /\ p_fmt p = c_fmt c /\ p_reclen p = c_reclen c.
Proof.
  induction l as [|a l IH]; cbn; intros H b Hb; [easy|].
  destruct (fits h c a) as [t| |] eqn:E; cbn in H; try discriminate. destruct t; try discriminate.
  destruct Hb as [<-|Hb]; [now apply fits_true|auto].
Qed.

Lemma point_step_keeps_format o p q : point_step o p = Ok q -> (forall f, o <> OFormat f) ->
  p_fmt q = p_fmt p /\ p_reclen q = p_reclen p.
Proof.
  intros H N. destruct o; cbn in H; try (injection H as <-; split; reflexivity).
  - destruct (acc_of_nat f); cbn [acc_set] in H;
      unfold set_ret_number, set_num_returns, set_synthetic, set_key_point, set_withheld, set_overlap,
        set_scanner_channel, set_scan_direction, set_edge_of_flight in H;
      try (destruct (15 <? v); [discriminate|]); try (destruct (3 <? v); [discriminate|]);
      injection H as <-; split; reflexivity.
  - unfold set_rgb in H. destruct (p_has_rgb p); [|discriminate]. injection H as <-; split; reflexivity.
  - unfold set_red in H. destruct (p_has_rgb p); [|discriminate]. injection H as <-; split; reflexivity.
  - unfold set_green in H. destruct (p_has_rgb p); [|discriminate]. injection H as <-; split; reflexivity.
  - unfold set_blue in H. destruct (p_has_rgb p); [|discriminate]. injection H as <-; split; reflexivity.
  - unfold set_nir in H. destruct (p_has_nir p); [|discriminate]. injection H as <-; split; reflexivity.
  - unfold set_extra_bytes in H. destruct (point_eb_size p); cbn [bind] in H; try discriminate.
    destruct (_ =? _); [|discriminate]. injection H as <-; split; reflexivity.
  - exfalso. now apply (N fmt).
Qed.

(* ---- ToPointFormat on a container ---- *)
Lemma for_each_format fmt (Hf : 6 <= fmt <= 8) l : forall h h',
  Forall wf_point h -> for_each (to_point_format fmt) l h = Ok h' ->
  Forall wf_point h' /\ length h' = length h /\
  (forall a, ~ In a l -> nth_error h' a = nth_error h a) /\
  (forall a p, nth_error h a = Some p ->
    exists q, nth_error h' a = Some q /\ p_eb q = p_eb p /\
      (In a l -> p_fmt q = fmt /\ p_reclen q = las_base fmt + Z.of_nat (length (p_eb p)))).
Proof.
  induction l as [|a l IH]; intros h h' W H.
  - cbn in H. injection H as <-. split; [auto|split; [auto|split; [auto|]]].
    intros a p E. exists p. split; auto. split; auto. intros [].
  - cbn [for_each] in H. destruct (hget h a) as [p| |] eqn:E; cbn [bind] in H; try discriminate.
    apply hget_ok in E. pose proof (nth_Forall _ _ _ _ W E) as Wp.
    destruct (to_point_format_spec fmt p Wp Hf) as (q & Eq & Wq & Fq & Rq & Rest).
    rewrite Eq in H. cbn [bind] in H. apply IH in H; [|now apply hset_Forall].
    destruct H as (W' & L & Ho & Hi). split; [auto|]. split; [now rewrite L, hset_length|]. split.
    + intros b Hb. rewrite Ho by (intros C; apply Hb; now right). apply nth_hset_ne. intros ->. apply Hb. now left.
    + assert (Eb : p_eb q = p_eb p) by intuition.
      intros b x Hx. destruct (Nat.eq_dec a b) as [<-|N].
      * assert (x = p) by congruence. subst x.
        destruct (Hi a q (nth_hset_eq _ _ _ _ E)) as (r & Hr & Ebr & Hin).
        exists r. split; auto. split; [congruence|]. intros _.
        destruct (in_dec Nat.eq_dec a l) as [I|I].
        -- rewrite <- Eb. now apply Hin.
        -- rewrite Ho, (nth_hset_eq _ _ _ _ E) in Hr by auto. injection Hr as <-. auto.
      * rewrite <- (nth_hset_ne h a b q N) in Hx. destruct (Hi b x Hx) as (r & Hr & Ebr & Hin).
        exists r. split; auto. split; auto. intros [C|C]; [easy|auto].
Qed.

Lemma point_byte_size_ok fmt eb : 6 <= fmt <= 8 -> point_byte_size fmt eb = Ok (to_u 16 (las_base fmt + eb)).
Proof. intros H. unfold point_byte_size. now rewrite las_base_ok. Qed.
Lemma to_u_id n v : 0 <= n -> 0 <= v < 2 ^ n -> to_u n v = v.
Proof. intros _ H. unfold to_u. now apply Z.mod_small. Qed.

Lemma points_to_format_spec fmt h c h' c' : Forall wf_point h -> cont_ok h c ->
  (c_pts c <> [] -> las_base fmt + (c_reclen c - las_base (c_fmt c)) <= 65535) ->
  points_to_format fmt h c = Ok (h', c') ->
  Forall wf_point h' /\ cont_ok h' c' /\ c_fmt c' = fmt /\ c_pts c' = c_pts c /\ length h' = length h /\
  (forall a, ~ In a (c_pts c) -> nth_error h' a = nth_error h a).
Proof.
  intros W (U & F) Hb H. unfold points_to_format in H.
  destruct ((fmt <? 6) || (8 <? fmt)) eqn:R; [discriminate|]. assert (Hf : 6 <= fmt <= 8) by lia.
  destruct (for_each _ (c_pts c) h) as [h1| |] eqn:E; cbn [bind] in H; try discriminate.
  rewrite las_base_ok in H by auto. cbn [bind] in H. rewrite point_byte_size_ok in H by auto. cbn [bind] in H.
  injection H as <- <-. destruct (for_each_format fmt Hf _ _ _ W E) as (W' & L & Ho & Hi).
  split; [auto|]. split; [|auto]. split; [|auto]. intros a Ha. cbn [c_pts c_fmt c_reclen] in *.
  destruct (U a Ha) as (p & Hp & Ef & Er). destruct (Hi a p Hp) as (q & Hq & Eb & Hin).
  exists q. split; auto. destruct (Hin Ha) as (Fq & Rq). split; auto. rewrite Rq.
  pose proof (nth_Forall _ _ _ _ W Hp) as (Pf & Pr & Pe & _).
  assert (c_reclen c - las_base (c_fmt c) = Z.of_nat (length (p_eb p))) as -> by (rewrite <- Er, <- Ef; lia).
  specialize (Hb ltac:(intros C; rewrite C in Ha; easy)).
  rewrite <- Er, Pr, <- Ef in Hb. pose proof (las_base_range fmt).
  assert (to_u 32 (Z.of_nat (length (p_eb p))) = Z.of_nat (length (p_eb p))) as -> by (apply to_u_id; lia).
  assert (to_u 16 (Z.of_nat (length (p_eb p))) = Z.of_nat (length (p_eb p))) as -> by (apply to_u_id; lia).
  rewrite to_u_id; lia.
Qed.

(* ---- array setters ---- *)
Lemma array_set_loop_spec {V} (f : V -> point -> outcome point) (P : point -> Prop) (RR : point -> point -> Prop)
  (HR : forall p, RR p p) (HT : forall p q r, RR p q -> RR q r -> RR p r)
  (HP : forall v p q, P p -> f v p = Ok q -> P q /\ RR p q) l : forall h h',
  Forall P h -> array_set_loop f l h = Ok h' ->
  Forall P h' /\ length h' = length h /\
  (forall a p, nth_error h a = Some p -> exists q, nth_error h' a = Some q /\ RR p q) /\
  (forall a, ~ In a (map fst l) -> nth_error h' a = nth_error h a).
Proof.
  induction l as [|(a, v) l IH]; intros h h' W H.
  - cbn in H. injection H as <-. repeat split; eauto.
  - cbn [array_set_loop] in H. destruct (hget h a) as [p| |] eqn:E; cbn [bind] in H; try discriminate.
    apply hget_ok in E. destruct (f v p) as [q| |] eqn:Eq; cbn [bind] in H; try discriminate.
    destruct (HP v p q (nth_Forall _ _ _ _ W E) Eq) as (Pq & Rq).
    apply IH in H; [|now apply hset_Forall]. destruct H as (W' & L & Hr & Ho).
    split; [auto|]. split; [now rewrite L, hset_length|]. split.
    + intros b x Hx. destruct (Nat.eq_dec a b) as [<-|N].
      * assert (x = p) by congruence. subst x. destruct (Hr a q (nth_hset_eq _ _ _ _ E)) as (r & Hr' & Rr).
        exists r. split; auto. eapply HT; eauto.
      * rewrite <- (nth_hset_ne h a b q N) in Hx. auto.
    + intros b Hb. cbn in Hb. rewrite Ho by tauto. apply nth_hset_ne. intros ->. tauto.
Qed.

Definition same_format (p q : point) : Prop := p_fmt q = p_fmt p /\ p_reclen q = p_reclen p.

Lemma uniform_same_format h h' c :
  (forall a p, nth_error h a = Some p -> exists q, nth_error h' a = Some q /\ same_format p q) ->
  uniform h c -> uniform h' c.
Proof.
  intros H U a Ha. destruct (U a Ha) as (p & Hp & E1 & E2). destruct (H a p Hp) as (q & Hq & F1 & F2).
  exists q. split; auto. split; congruence.
Qed.

Lemma fdim_set_wf d v p : wf_point p -> wf_point (fdim_set d v p) /\ same_format p (fdim_set d v p).
Proof. intros W. destruct d; (split; [exact W|split; reflexivity]). Qed.

Definition zdim_arg (d : zdim) (v : Z) : Prop :=
  match d with DClass | DSrc => 0 <= v < 256 | _ => 0 <= v < 65536 end.
Lemma zdim_set_wf d v p q : zdim_arg d v -> wf_point p -> zdim_set d v p = Ok q -> wf_point q /\ same_format p q.
Proof.
  intros A W H. destruct d; cbn [zdim_set zdim_arg] in *.
  - split; [eapply (point_step_wf (OClass v)); eauto; exact A|injection H as <-; split; reflexivity].
  - split; [eapply (point_step_wf (OSrc v)); eauto; cbn; lia|injection H as <-; split; reflexivity].
  - split; [eapply (point_step_wf (ORed v)); eauto; cbn; lia|eapply (point_step_keeps_format (ORed v)); eauto; discriminate].
  - split; [eapply (point_step_wf (OGreen v)); eauto; cbn; lia|eapply (point_step_keeps_format (OGreen v)); eauto; discriminate].
  - split; [eapply (point_step_wf (OBlue v)); eauto; cbn; lia|eapply (point_step_keeps_format (OBlue v)); eauto; discriminate].
Qed.

Lemma array_set_loop_Forall {V} (f : V -> point -> outcome point) (Q : V -> Prop) (P : point -> Prop) (RR : point -> point -> Prop)
  (HR : forall p, RR p p) (HT : forall p q r, RR p q -> RR q r -> RR p r)
  (HP : forall v p q, Q v -> P p -> f v p = Ok q -> P q /\ RR p q) l : forall h h',
  Forall Q (map snd l) -> Forall P h -> array_set_loop f l h = Ok h' ->
  Forall P h' /\ (forall a p, nth_error h a = Some p -> exists q, nth_error h' a = Some q /\ RR p q).
Proof.
  induction l as [|(a, v) l IH]; intros h h' FQ W H.
  - cbn in H. injection H as <-. split; eauto.
  - cbn [array_set_loop] in H. destruct (hget h a) as [p| |] eqn:E; cbn [bind] in H; try discriminate.
    apply hget_ok in E. destruct (f v p) as [q| |] eqn:Eq; cbn [bind] in H; try discriminate.
    cbn in FQ. inversion FQ as [|? ? Qv FQ']; subst.
    destruct (HP v p q Qv (nth_Forall _ _ _ _ W E) Eq) as (Pq & Rq).
    apply IH in H; [|auto|now apply hset_Forall]. destruct H as (W' & Hr).
    split; [auto|].
    intros b x Hx. destruct (Nat.eq_dec a b) as [<-|N].
    + assert (x = p) by congruence. subst x. destruct (Hr a q (nth_hset_eq _ _ _ _ E)) as (r & Hr' & Rr).
      exists r. split; auto. eapply HT; eauto.
    + rewrite <- (nth_hset_ne h a b q N) in Hx. auto.
Qed.

Lemma map_fst_combine {A B} (l : list A) : forall (m : list B), length l = length m -> map fst (combine l m) = l.
Proof. induction l as [|a l IH]; intros [|b m] H; cbn in *; auto; try discriminate. f_equal. apply IH. lia. Qed.
Lemma map_snd_combine {A B} (l : list A) : forall (m : list B), length l = length m -> map snd (combine l m) = m.
Proof. induction l as [|a l IH]; intros [|b m] H; cbn in *; auto; try discriminate. f_equal. apply IH. lia. Qed.

Lemma same_format_refl p : same_format p p. Proof. split; reflexivity. Qed.
Lemma same_format_trans p q r : same_format p q -> same_format q r -> same_format p r.
Proof. intros [] []; split; congruence. Qed.

(* ---- Unpack ---- *)
Lemma take_bytes_inv n b x r : wf_bytes b -> take_bytes n b = Some (x, r) ->
  b = x ++ r /\ length x = n /\ wf_bytes x /\ wf_bytes r.
Proof.
  intros W H. apply take_bytes_some in H. destruct H as (-> & L). apply wf_bytes_app in W. tauto.
Qed.
Lemma dec_u_inv n b v r : wf_bytes b -> dec_u n b = Some (v, r) ->
  b = le_enc n v ++ r /\ 0 <= v < 2 ^ (8 * Z.of_nat n) /\ wf_bytes r.
Proof.
  intros W H. unfold dec_u in H. destruct (take_bytes n b) as [(x, r')|] eqn:E; [|discriminate].
  injection H as <- <-. apply take_bytes_inv in E; auto. destruct E as (-> & <- & Wx & Wr).
  rewrite le_enc_dec by auto. split; auto. split; auto. now apply le_dec_bound.
Qed.
Lemma le_enc_mod n : forall v, le_enc n (v mod 2 ^ (8 * Z.of_nat n)) = le_enc n v.
Proof.
  induction n as [|n IH]; intros v; [reflexivity|]. cbn [le_enc].
  assert (P : 2 ^ (8 * Z.of_nat (S n)) = 256 * 2 ^ (8 * Z.of_nat n)).
  { replace (8 * Z.of_nat (S n)) with (8 + 8 * Z.of_nat n) by lia. rewrite Z.pow_add_r by lia. reflexivity. }
  assert (0 < 2 ^ (8 * Z.of_nat n)) by (apply Z.pow_pos_nonneg; lia).
  f_equal.
  - rewrite P. rewrite Z.rem_mul_r by lia.
    rewrite (Z.mul_comm 256), Z.mod_add by lia. now rewrite Z.mod_mod by lia.
  - rewrite <- (IH (v / 256)). f_equal. rewrite P, Z.rem_mul_r by lia.
    rewrite (Z.mul_comm 256), Z.div_add by lia. rewrite (Z.div_small (v mod 256)) by (apply Z.mod_pos_bound; lia). lia.
Qed.
Lemma to_s_mod n v : 0 < n -> (to_s n v) mod 2 ^ n = v mod 2 ^ n.
Proof.
  intros Hn. unfold to_s. cbv zeta. destruct (_ <? _); [apply Z.mod_mod; apply Z.pow_nonzero; lia|].
  rewrite Zminus_mod, Z_mod_same_full, Z.sub_0_r, !Z.mod_mod by (apply Z.pow_nonzero; lia). reflexivity.
Qed.
Lemma to_s_bounds n v : 0 < n -> - 2 ^ (n - 1) <= to_s n v < 2 ^ (n - 1).
Proof.
  intros Hn. unfold to_s. cbv zeta. assert (2 ^ n = 2 * 2 ^ (n - 1)).
  { replace n with (1 + (n - 1)) at 1 by lia. rewrite Z.pow_add_r by lia. reflexivity. }
  assert (0 < 2 ^ (n - 1)) by (apply Z.pow_pos_nonneg; lia).
  pose proof (Z.mod_pos_bound v (2 ^ n) ltac:(lia)).
  destruct (Z.ltb_spec (v mod 2 ^ n) (2 ^ (n - 1))); lia.
Qed.
Lemma dec_s_inv n b v r : (0 < n)%nat -> wf_bytes b -> dec_s n b = Some (v, r) ->
  b = le_enc n v ++ r /\ - 2 ^ (8 * Z.of_nat n - 1) <= v < 2 ^ (8 * Z.of_nat n - 1) /\ wf_bytes r.
Proof.
  intros Hn W H. unfold dec_s in H. destruct (take_bytes n b) as [(x, r')|] eqn:E; [|discriminate].
  injection H as <- <-. apply take_bytes_inv in E; auto. destruct E as (-> & <- & Wx & Wr).
  split; [|split; [apply to_s_bounds; lia|auto]]. f_equal.
  rewrite <- le_enc_mod, to_s_mod by lia. rewrite le_enc_mod. symmetry. now apply le_enc_dec.
Qed.
Lemma dec_f64_inv b g r : wf_bytes b -> dec_f64 b = Some (g, r) -> b = enc_f64 g ++ r /\ wf_bytes r.
Proof.
  intros W H. unfold dec_f64 in H. destruct (dec_u 8 b) as [(z, r')|] eqn:E; [|discriminate].
  injection H as <- <-. apply dec_u_inv in E; auto. destruct E as (-> & B & Wr). split; auto.
  unfold enc_f64. rewrite f64_of_bits_roundtrip by exact B. reflexivity.
Qed.

(* the packed form of a point with stored coordinates x y z *)
Definition packed (p : point) (x y z : Z) : bytes :=
  enc_i32 x ++ enc_i32 y ++ enc_i32 z ++ enc_u16 (p_intensity p) ++
  enc_u8 (p_returns p) ++ enc_u8 (p_flags p) ++ enc_u8 (p_class p) ++ enc_u8 (p_user p) ++
  enc_i16 (p_angle p) ++ enc_u16 (p_src p) ++ enc_f64 (p_gps p) ++
  (if p_has_rgb p then enc_u16 (p_red p) ++ enc_u16 (p_green p) ++ enc_u16 (p_blue p) else []) ++
  (if p_has_nir p then enc_u16 (p_nir p) else []) ++ p_eb p.


Lemma unpack_inv b fmt s o eb p r : wf_bytes b -> 0 <= eb <= 65535 -> point_unpack b fmt s o eb = Ok (p, r) ->
  exists x y z, INT32_MIN <= x <= INT32_MAX /\ INT32_MIN <= y <= INT32_MAX /\ INT32_MIN <= z <= INT32_MAX /\
    b = packed p x y z ++ r /\ wf_bytes r /\ wf_point p /\ p_fmt p = fmt /\ Z.of_nat (length (p_eb p)) = eb /\
    p_x p = apply_scale_i x (vx s) (vx o) /\ p_y p = apply_scale_i y (vy s) (vy o) /\
    p_z p = apply_scale_i z (vz s) (vz o) /\ 6 <= fmt <= 8.
Proof.
  intros W Heb H. unfold point_unpack in H.
  destruct (new_point fmt eb) as [p0| |] eqn:E0; cbn [bind] in H; try discriminate.
  assert (Hf : 6 <= fmt <= 8).
  { destruct (Z_le_dec 6 fmt), (Z_le_dec fmt 8); try lia; rewrite new_point_throw in E0 by lia; discriminate. }
  rewrite new_point_ok in E0 by lia. injection E0 as <-.
  unfold rd in H.
  destruct (dec_s 4 b) as [(x, b1)|] eqn:E1; [|discriminate H]. apply dec_s_inv in E1; [|lia|exact W]. destruct E1 as (-> & Bx & W1).
  destruct (dec_s 4 b1) as [(y, b2)|] eqn:E1; [|discriminate H]. apply dec_s_inv in E1; [|lia|exact W1]. destruct E1 as (-> & By & W2).
  destruct (dec_s 4 b2) as [(z, b3)|] eqn:E1; [|discriminate H]. apply dec_s_inv in E1; [|lia|exact W2]. destruct E1 as (-> & Bz & W3).
  destruct (dec_u 2 b3) as [(int, b4)|] eqn:E1; [|discriminate H]. apply dec_u_inv in E1; [|exact W3]. destruct E1 as (-> & Bint & W4).
  destruct (dec_u 1 b4) as [(ret, b5)|] eqn:E1; [|discriminate H]. apply dec_u_inv in E1; [|exact W4]. destruct E1 as (-> & Bret & W5).
  destruct (dec_u 1 b5) as [(fl, b6)|] eqn:E1; [|discriminate H]. apply dec_u_inv in E1; [|exact W5]. destruct E1 as (-> & Bfl & W6).
  destruct (dec_u 1 b6) as [(cl, b7)|] eqn:E1; [|discriminate H]. apply dec_u_inv in E1; [|exact W6]. destruct E1 as (-> & Bcl & W7).
  destruct (dec_u 1 b7) as [(us, b8)|] eqn:E1; [|discriminate H]. apply dec_u_inv in E1; [|exact W7]. destruct E1 as (-> & Bus & W8).
  destruct (dec_s 2 b8) as [(an, b9)|] eqn:E1; [|discriminate H]. apply dec_s_inv in E1; [|lia|exact W8]. destruct E1 as (-> & Ban & W9).
  destruct (dec_u 2 b9) as [(sr, b10)|] eqn:E1; [|discriminate H]. apply dec_u_inv in E1; [|exact W9]. destruct E1 as (-> & Bsr & W10).
  destruct (dec_f64 b10) as [(g, b11)|] eqn:E1; [|discriminate H]. apply dec_f64_inv in E1; [|exact W10]. destruct E1 as (-> & W11).
  change (- 2 ^ (8 * Z.of_nat 4 - 1)) with INT32_MIN in *. change (2 ^ (8 * Z.of_nat 4 - 1)) with (INT32_MAX + 1) in *.
  change (2 ^ (8 * Z.of_nat 2)) with 65536 in *. change (2 ^ (8 * Z.of_nat 1)) with 256 in *.
  change (- 2 ^ (8 * Z.of_nat 2 - 1)) with (-32768) in *. change (2 ^ (8 * Z.of_nat 2 - 1)) with 32768 in *.
  exists x, y, z. split; [lia|split; [lia|split; [lia|]]].
  assert (fmt = 6 \/ fmt = 7 \/ fmt = 8) as [E|[E|E]] by lia; subst fmt;
    cbn [Z.leb Z.eqb Z.compare Pos.compare Pos.compare_cont Pos.eqb bind p_has_rgb p_has_nir fill_common fill_rgb with_nir] in H.
  - destruct (take_bytes (Z.to_nat eb) b11) as [(e, b12)|] eqn:E1; [|discriminate H].
    apply take_bytes_inv in E1; [|exact W11]. destruct E1 as (-> & L & We & W12).
    injection H as <- <-. split; [unfold packed; cbn [p_intensity p_returns p_flags p_class p_user p_angle p_src p_gps p_has_rgb p_has_nir p_eb with_eb fill_common]; now rewrite <- !app_assoc|].
    split; [auto|]. split; [|cbn; repeat split; auto; lia].
    unfold wf_point. cbn. repeat split; auto; try lia; try (unfold las_base; cbn; lia).
  - destruct (dec_u 2 b11) as [(re, b12)|] eqn:E1; cbn [bind] in H; [|discriminate H]. apply dec_u_inv in E1; [|exact W11]. destruct E1 as (-> & Bre & W12).
    destruct (dec_u 2 b12) as [(gr, b13)|] eqn:E1; cbn [bind] in H; [|discriminate H]. apply dec_u_inv in E1; [|exact W12]. destruct E1 as (-> & Bgr & W13).
    destruct (dec_u 2 b13) as [(bl, b14)|] eqn:E1; cbn [bind] in H; [|discriminate H]. apply dec_u_inv in E1; [|exact W13]. destruct E1 as (-> & Bbl & W14).
    cbn [p_has_nir fill_rgb fill_common bind] in H.
    destruct (take_bytes (Z.to_nat eb) b14) as [(e, b15)|] eqn:E1; [|discriminate H].
    apply take_bytes_inv in E1; [|exact W14]. destruct E1 as (-> & L & We & W15).
    change (2 ^ (8 * Z.of_nat 2)) with 65536 in *.
    injection H as <- <-. split; [unfold packed; cbn [p_intensity p_returns p_flags p_class p_user p_angle p_src p_gps p_has_rgb p_has_nir p_eb with_eb fill_common fill_rgb p_red p_green p_blue]; now rewrite <- !app_assoc|].
    split; [auto|]. split; [|cbn; repeat split; auto; lia].
    unfold wf_point. cbn. repeat split; auto; try lia; try (unfold las_base; cbn; lia).
  - destruct (dec_u 2 b11) as [(re, b12)|] eqn:E1; cbn [bind] in H; [|discriminate H]. apply dec_u_inv in E1; [|exact W11]. destruct E1 as (-> & Bre & W12).
    destruct (dec_u 2 b12) as [(gr, b13)|] eqn:E1; cbn [bind] in H; [|discriminate H]. apply dec_u_inv in E1; [|exact W12]. destruct E1 as (-> & Bgr & W13).
    destruct (dec_u 2 b13) as [(bl, b14)|] eqn:E1; cbn [bind] in H; [|discriminate H]. apply dec_u_inv in E1; [|exact W13]. destruct E1 as (-> & Bbl & W14).
    cbn [p_has_nir fill_rgb fill_common bind] in H.
    destruct (dec_u 2 b14) as [(ni, b15)|] eqn:E1; cbn [bind] in H; [|discriminate H]. apply dec_u_inv in E1; [|exact W14]. destruct E1 as (-> & Bni & W15).
    destruct (take_bytes (Z.to_nat eb) b15) as [(e, b16)|] eqn:E1; [|discriminate H].
    apply take_bytes_inv in E1; [|exact W15]. destruct E1 as (-> & L & We & W16).
    change (2 ^ (8 * Z.of_nat 2)) with 65536 in *.
    injection H as <- <-. split; [unfold packed; cbn [p_intensity p_returns p_flags p_class p_user p_angle p_src p_gps p_has_rgb p_has_nir p_eb with_eb fill_common fill_rgb with_nir p_red p_green p_blue p_nir]; now rewrite <- !app_assoc|].
    split; [auto|]. split; [|cbn; repeat split; auto; lia].
    unfold wf_point. cbn. repeat split; auto; try lia; try (unfold las_base; cbn; lia).
Qed.

Lemma packed_length p x y z : wf_point p -> Z.of_nat (length (packed p x y z)) = p_reclen p.
Proof.
  intros (Hf & Hr & _ & _ & _ & _ & _ & _ & _ & _ & _ & _ & _ & _ & _ & Hrgb & Hnir).
  rewrite Hr. unfold packed, enc_f64, enc_u64, enc_i32, enc_u16, enc_u8, enc_i16.
  rewrite !app_length, !le_enc_length, Hrgb, Hnir.
  assert (p_fmt p = 6 \/ p_fmt p = 7 \/ p_fmt p = 8) as [E|[E|E]] by lia; rewrite E; unfold las_base;
    cbn [Z.leb Z.eqb Z.compare Pos.compare Pos.compare_cont Pos.eqb];
    rewrite ?app_length, ?le_enc_length; cbn [length]; lia.
Qed.

Lemma dec_u_total n b : (n <= length b)%nat -> exists v r, dec_u n b = Some (v, r) /\ (length r + n = length b)%nat.
Proof.
  intros H. unfold dec_u, take_bytes. destruct (Nat.leb_spec n (length b)); [|lia].
  do 2 eexists. split; [reflexivity|]. rewrite skipn_length. lia.
Qed.
Lemma dec_s_total n b : (n <= length b)%nat -> exists v r, dec_s n b = Some (v, r) /\ (length r + n = length b)%nat.
Proof.
  intros H. unfold dec_s, take_bytes. destruct (Nat.leb_spec n (length b)); [|lia].
  do 2 eexists. split; [reflexivity|]. rewrite skipn_length. lia.
Qed.

Lemma unpack_total b fmt s o eb : 6 <= fmt <= 8 -> 0 <= eb <= 65535 -> las_base fmt + eb <= Z.of_nat (length b) ->
  exists p r, point_unpack b fmt s o eb = Ok (p, r).
Proof.
  intros Hf He HL. unfold point_unpack. rewrite new_point_ok by auto. cbn [bind]. unfold rd.
  pose proof (las_base_range fmt) as Hb.
  destruct (dec_s_total 4 b) as (x & b1 & E & L1); [lia|]; rewrite E; clear E.
  destruct (dec_s_total 4 b1) as (y & b2 & E & L2); [lia|]; rewrite E; clear E.
  destruct (dec_s_total 4 b2) as (z & b3 & E & L3); [lia|]; rewrite E; clear E.
  destruct (dec_u_total 2 b3) as (v1 & b4 & E & L4); [lia|]; rewrite E; clear E.
  destruct (dec_u_total 1 b4) as (v2 & b5 & E & L5); [lia|]; rewrite E; clear E.
  destruct (dec_u_total 1 b5) as (v3 & b6 & E & L6); [lia|]; rewrite E; clear E.
  destruct (dec_u_total 1 b6) as (v4 & b7 & E & L7); [lia|]; rewrite E; clear E.
  destruct (dec_u_total 1 b7) as (v5 & b8 & E & L8); [lia|]; rewrite E; clear E.
  destruct (dec_s_total 2 b8) as (v6 & b9 & E & L9); [lia|]; rewrite E; clear E.
  destruct (dec_u_total 2 b9) as (v7 & b10 & E & L10); [lia|]; rewrite E; clear E.
  unfold dec_f64. destruct (dec_u_total 8 b10) as (v8 & b11 & E & L11); [lia|]; rewrite E; clear E.
  assert (fmt = 6 \/ fmt = 7 \/ fmt = 8) as [E|[E|E]] by lia; subst fmt; unfold las_base in HL; cbn in HL;
    cbn [Z.leb Z.eqb Z.compare Pos.compare Pos.compare_cont Pos.eqb bind p_has_rgb p_has_nir fill_common fill_rgb with_nir].
  - unfold take_bytes. destruct (Nat.leb_spec (Z.to_nat eb) (length b11)); [|lia]. do 2 eexists; reflexivity.
  - destruct (dec_u_total 2 b11) as (v9 & b12 & E & L12); [lia|]; rewrite E; clear E.
    destruct (dec_u_total 2 b12) as (v10 & b13 & E & L13); [lia|]; rewrite E; clear E.
    destruct (dec_u_total 2 b13) as (v11 & b14 & E & L14); [lia|]; rewrite E; clear E. cbn [bind p_has_nir fill_rgb fill_common].
    unfold take_bytes. destruct (Nat.leb_spec (Z.to_nat eb) (length b14)); [|lia]. do 2 eexists; reflexivity.
  - destruct (dec_u_total 2 b11) as (v9 & b12 & E & L12); [lia|]; rewrite E; clear E.
    destruct (dec_u_total 2 b12) as (v10 & b13 & E & L13); [lia|]; rewrite E; clear E.
    destruct (dec_u_total 2 b13) as (v11 & b14 & E & L14); [lia|]; rewrite E; clear E. cbn [bind p_has_nir fill_rgb fill_common].
    destruct (dec_u_total 2 b14) as (v12 & b15 & E & L15); [lia|]; rewrite E; clear E. cbn [bind].
    unfold take_bytes. destruct (Nat.leb_spec (Z.to_nat eb) (length b15)); [|lia]. do 2 eexists; reflexivity.
Qed.
