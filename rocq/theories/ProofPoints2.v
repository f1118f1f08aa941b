(* ProofPoints2.v - proofs about the Points container, continued (C11-C13) *)
From Verif Require Import BaseFacts ModelFloat ModelKey ModelGeom ModelPoint SpecPoint ModelPoints SpecPoints
  ProofFloat ProofPoint ProofPoint2 ProofScale ProofPoints.
From Coq Require Import ZifyBool ZifyNat.
Open Scope Z_scope.

(* ---- Unpack of a whole array ---- *)
Lemma unpack_loop_ok n : forall b fmt s o eb h c,
  wf_bytes b -> 6 <= fmt <= 8 -> 0 <= eb <= 65535 -> c_fmt c = fmt -> c_reclen c = las_base fmt + eb ->
  Z.of_nat (length b) = Z.of_nat n * (las_base fmt + eb) ->
  exists ps, unpack_loop n b fmt s o eb h c = Ok (h ++ ps, mkPoints fmt (las_base fmt + eb) (c_pts c ++ seq (length h) n)) /\
    length ps = n /\ Forall wf_point ps /\
    Forall (fun p => p_fmt p = fmt /\ p_reclen p = las_base fmt + eb) ps /\
    (forall i p, nth_error ps i = Some p ->
       point_unpack (skipn (i * Z.to_nat (las_base fmt + eb)) b) fmt s o eb
         = Ok (p, skipn (S i * Z.to_nat (las_base fmt + eb)) b)) /\
    (exact_region s o -> exists bs, mapM (fun p => point_pack p s o) ps = Ok bs /\ concat bs = b).
Proof.
  induction n as [|n IH]; intros b fmt s o eb h c W Hf He Hcf Hcr L.
  - exists []. cbn [unpack_loop seq length]. rewrite !app_nil_r.
    split; [destruct c; cbn in *; subst; reflexivity|]. split; [reflexivity|]. split; [constructor|].
    split; [constructor|]. split; [intros [|i] p; discriminate|].
    intros _. exists []. split; [reflexivity|]. destruct b; [reflexivity|cbn in L; lia].
  - pose proof (las_base_range fmt) as HB. set (R := las_base fmt + eb) in *.
    destruct (unpack_total b fmt s o eb Hf He) as (p & r & E); [fold R; nia|].
    destruct (unpack_inv _ _ _ _ _ _ _ W He E) as (x & y & z & Bx & By & Bz & Eb & Wr & Wp & Ef & El & Ex & Ey & Ez & _).
    assert (Er : p_reclen p = R). { destruct Wp as (_ & Hr & _). rewrite Hr, Ef, El. reflexivity. }
    pose proof (packed_length p x y z Wp) as PL. rewrite Er in PL.
    cbn [unpack_loop]. rewrite E. cbn [bind]. unfold add_point, fits.
    replace (hget (h ++ [p]) (length h)) with (Ok p) by (symmetry; apply hget_ok, nth_app_last).
    cbn [bind]. rewrite Ef, Er, Hcf, Hcr, !Z.eqb_refl. cbn [andb bind].
    assert (Lr : Z.of_nat (length r) = Z.of_nat n * R). { rewrite Eb, app_length in L. nia. }
    destruct (IH r fmt s o eb (h ++ [p]) (mkPoints fmt R (c_pts c ++ [length h])) Wr Hf He eq_refl eq_refl Lr)
      as (ps & EL & Lps & Wps & Fps & Nps & Pps). fold R in EL, Fps, Nps.
    exists (p :: ps). rewrite EL. rewrite <- !app_assoc. cbn [c_pts app seq]. rewrite <- app_assoc, app_length. cbn [app length].
    rewrite Nat.add_1_r.
    split; [reflexivity|]. split; [now rewrite Lps|]. split; [constructor; auto|]. split; [constructor; auto|].
    assert (Sk : skipn (Z.to_nat R) b = r).
    { rewrite Eb. replace (Z.to_nat R) with (length (packed p x y z)) by lia. rewrite skipn_app, skipn_all, Nat.sub_diag. reflexivity. }
    split.
    + intros [|i] q Hq.
      * cbn in Hq. injection Hq as <-. cbn [Nat.mul]. rewrite Nat.add_0_r. cbn [skipn]. rewrite E, Sk. reflexivity.
      * cbn in Hq. specialize (Nps i q Hq).
        replace (S i * Z.to_nat R)%nat with (i * Z.to_nat R + Z.to_nat R)%nat by lia.
        replace (S (S i) * Z.to_nat R)%nat with (S i * Z.to_nat R + Z.to_nat R)%nat by lia.
        assert (SS : forall k, skipn (k + Z.to_nat R) b = skipn k r).
        { intros k. rewrite <- Sk. clear. revert b. generalize (Z.to_nat R). intros m b. revert b.
          induction m as [|m IHm]; intros b; [now rewrite Nat.add_0_r|]. rewrite Nat.add_succ_r.
          destruct b; [now rewrite !skipn_nil|]. cbn [skipn]. apply IHm. }
        now rewrite !SS.
    + intros Reg. destruct (Pps Reg) as (bs & Ebs & Cbs). exists (packed p x y z :: bs).
      destruct Reg as ((s1 & s2 & s3 & s4 & s5) & (t1 & t2 & t3 & t4 & t5) & (u1 & u2 & u3 & u4 & u5)).
      split; [|cbn [concat]; rewrite Cbs; now rewrite Eb].
      cbn [mapM]. unfold point_pack at 1. rewrite Ex, Ey, Ez.
      unfold INT32_MIN, INT32_MAX in *.
      rewrite (repack_exact x), (repack_exact y), (repack_exact z) by assumption. cbn [bind].
      rewrite Ebs. reflexivity.
Qed.

Lemma new_points_ok fmt eb : 6 <= fmt <= 8 -> 0 <= eb -> las_base fmt + eb <= 65535 ->
  new_points fmt eb = Ok (mkPoints fmt (las_base fmt + eb) []).
Proof.
  intros Hf He Hb. pose proof (las_base_range fmt). unfold new_points.
  destruct (Z.ltb_spec fmt 0); [lia|]. destruct (Z.ltb_spec 10 fmt); [lia|]. cbn [orb].
  rewrite point_byte_size_ok by auto. cbn [bind]. rewrite to_u_id by lia. reflexivity.
Qed.

Lemma points_unpack_bad_length h data fmt eb s o : 6 <= fmt <= 8 -> 0 <= eb -> las_base fmt + eb <= 65535 ->
  Z.of_nat (length data) mod (las_base fmt + eb) <> 0 -> points_unpack h data fmt eb s o = Throw.
Proof.
  intros Hf He Hb Hm. pose proof (las_base_range fmt). unfold points_unpack. rewrite point_byte_size_ok by auto.
  cbn [bind]. rewrite to_u_id by lia. destruct (Z.eqb_spec (las_base fmt + eb) 0); [lia|].
  destruct (Z.eqb_spec (Z.of_nat (length data) mod (las_base fmt + eb)) 0); [easy|]. reflexivity.
Qed.

Lemma points_unpack_ok h data fmt eb s o : wf_bytes data -> 6 <= fmt <= 8 -> 0 <= eb -> las_base fmt + eb <= 65535 ->
  Z.of_nat (length data) mod (las_base fmt + eb) = 0 ->
  Z.of_nat (length data) / (las_base fmt + eb) <= INT32_MAX ->
  exists ps, let n := Z.to_nat (Z.of_nat (length data) / (las_base fmt + eb)) in
    points_unpack h data fmt eb s o = Ok (h ++ ps, mkPoints fmt (las_base fmt + eb) (seq (length h) n)) /\
    length ps = n /\ Forall wf_point ps /\
    Forall (fun p => p_fmt p = fmt /\ p_reclen p = las_base fmt + eb) ps /\
    (forall i p, nth_error ps i = Some p ->
       point_unpack (skipn (i * Z.to_nat (las_base fmt + eb)) data) fmt s o eb
         = Ok (p, skipn (S i * Z.to_nat (las_base fmt + eb)) data)) /\
    (exact_region s o -> exists bs, mapM (fun p => point_pack p s o) ps = Ok bs /\ concat bs = data).
Proof.
  intros W Hf He Hb Hm Hc. pose proof (las_base_range fmt). cbv zeta.
  assert (He' : eb <= 65535) by lia. assert (HR : exists R, R = las_base fmt + eb) by eauto. destruct HR as (R & HR). rewrite <- HR in *.
  destruct (unpack_loop_ok (Z.to_nat (Z.of_nat (length data) / R)) data fmt s o eb h (mkPoints fmt R []) W Hf) as (ps & E & Rest); rewrite <- ?HR; cbn [c_fmt c_reclen c_pts]; auto; try lia.
  exists ps. rewrite <- ?HR in E, Rest. cbn [app c_pts] in E. split; [|exact Rest].
  unfold points_unpack. rewrite point_byte_size_ok by auto. cbn [bind]. rewrite <- ?HR. rewrite to_u_id by lia.
  destruct (Z.eqb_spec R 0); [lia|]. rewrite Hm. cbn [Z.eqb negb].
  rewrite new_points_ok by lia. cbn [bind]. rewrite <- ?HR. destruct (Z.ltb_spec INT32_MAX (Z.of_nat (length data) / R)); [lia|].
  exact E.
Qed.

Lemma mapM_hget_seq (f : point -> outcome bytes) ps : forall h t,
  mapM (fun a => let! p := hget (h ++ ps ++ t) a in f p) (seq (length h) (length ps)) = mapM f ps.
Proof.
  induction ps as [|p ps IH]; intros h t; [reflexivity|]. cbn [length seq mapM].
  replace (hget (h ++ (p :: ps) ++ t) (length h)) with (Ok p).
  2:{ symmetry. apply hget_ok. rewrite nth_error_app2 by lia. now rewrite Nat.sub_diag. }
  cbn [bind]. destruct (f p); cbn [bind]; auto.
  specialize (IH (h ++ [p]) t). rewrite app_length in IH. cbn [length] in IH. rewrite Nat.add_1_r, <- app_assoc in IH.
  cbn [app] in IH. cbn [app]. now rewrite IH.
Qed.

Lemma pack_of_unpack h data fmt eb s o : wf_bytes data -> 6 <= fmt <= 8 -> 0 <= eb -> las_base fmt + eb <= 65535 ->
  Z.of_nat (length data) mod (las_base fmt + eb) = 0 ->
  Z.of_nat (length data) / (las_base fmt + eb) <= INT32_MAX -> exact_region s o ->
  exists h' c, points_unpack h data fmt eb s o = Ok (h', c) /\ points_pack h' c s o = Ok data.
Proof.
  intros W Hf He Hb Hm Hc Reg. destruct (points_unpack_ok h data fmt eb s o W Hf He Hb Hm Hc) as (ps & E & L & _ & _ & _ & P).
  destruct (P Reg) as (bs & Ebs & Cbs). do 2 eexists. split; [exact E|].
  unfold points_pack. cbn [c_pts]. rewrite <- L.
  pose proof (mapM_hget_seq (fun p => point_pack p s o) ps h []) as M. rewrite app_nil_r in M. rewrite M, Ebs. cbn [bind].
  now rewrite Cbs.
Qed.

(* ---- Pack of a container ---- *)
Lemma points_pack_spec h c s o b : Forall wf_point h -> uniform h c -> points_pack h c s o = Ok b ->
  Z.of_nat (length b) = Z.of_nat (length (c_pts c)) * c_reclen c /\
  forall i a, nth_error (c_pts c) i = Some a -> exists p, nth_error h a = Some p /\
    point_pack p s o = Ok (slice b (i * Z.to_nat (c_reclen c)) (Z.to_nat (c_reclen c))).
Proof.
  intros W U H. unfold points_pack in H.
  destruct (mapM _ (c_pts c)) as [bs| |] eqn:E; cbn [bind] in H; try discriminate. injection H as <-.
  unfold uniform in U. revert bs E U. generalize (c_pts c) as l. intros l. induction l as [|a l IH]; intros bs E U.
  - cbn in E. injection E as <-. split; [reflexivity|]. intros [|i] a; discriminate.
  - cbn [mapM] in E. destruct (hget h a) as [p| |] eqn:Ea; cbn [bind] in E; try discriminate. apply hget_ok in Ea.
    destruct (point_pack p s o) as [pb| |] eqn:Ep; cbn [bind] in E; try discriminate.
    destruct (mapM _ l) as [bs'| |] eqn:El; cbn [bind] in E; try discriminate. injection E as <-.
    destruct (IH bs' eq_refl) as (L & N). { intros x Hx. apply U. now right. }
    destruct (U a (or_introl eq_refl)) as (q & Hq & Qf & Qr). assert (q = p) by congruence. subst q.
    pose proof (pack_length _ _ _ _ (nth_Forall _ _ _ _ W Ea) Ep) as Lp. rewrite Qr in Lp.
    cbn [concat length]. rewrite app_length. split; [lia|].
    intros [|i] x Hx.
    + cbn in Hx. injection Hx as <-. exists p. split; auto. cbn [Nat.mul]. rewrite slice_hd by lia. exact Ep.
    + cbn in Hx. destruct (N i x Hx) as (q & Hq' & Eq). exists q. split; auto.
      replace (S i * Z.to_nat (c_reclen c))%nat with (Z.to_nat (c_reclen c) + i * Z.to_nat (c_reclen c))%nat by lia.
      rewrite slice_skip by lia. exact Eq.
Qed.

(* ---- the history invariant (C12) ---- *)
Lemma point_run_step_inv s s' o : ps_inv s -> pop_wf o -> safe_format_change s o -> pstep o s = Ok s' -> ps_inv s'.
Proof.
  intros (W & C) Wo Safe H. rewrite Forall_forall in C.
  assert (GC : forall i c, get_cont s i = Ok c -> nth_error (st_conts s) i = Some c /\ In c (st_conts s)).
  { unfold get_cont. intros i c E. destruct (nth_error (st_conts s) i) eqn:N; [|discriminate]. injection E as <-.
    split; auto. eapply nth_error_In; eauto. }
  assert (Upd : forall i c c', get_cont s i = Ok c -> cont_ok (st_heap s) c' ->
     ps_inv (mkPS (st_heap s) (set_nth (st_conts s) i c'))).
  { intros i c c' G K. split; cbn; auto. apply Forall_forall. intros x Hx. apply set_nth_In in Hx. destruct Hx as [->|Hx]; auto. }
  destruct o; cbn [pstep] in H; cbn [pop_wf] in Wo; cbn [safe_format_change] in Safe.
  - destruct (new_point fmt eb) as [p| |] eqn:E; cbn [bind] in H; try discriminate. injection H as <-.
    split; cbn.
    + apply Forall_app. split; auto. constructor; auto. eapply new_point_wf; eauto.
    + apply Forall_forall. intros c Hc. apply cont_ok_app. auto.
  - destruct (hget (st_heap s) a) as [p| |] eqn:E; cbn [bind] in H; try discriminate. apply hget_ok in E.
    destruct (point_step o p) as [q| |] eqn:Eq; cbn [bind] in H; try discriminate. injection H as <-.
    pose proof (nth_Forall _ _ _ _ W E) as Wp.
    split; cbn; [apply hset_Forall; auto; eapply point_step_wf; eauto|].
    apply Forall_forall. intros c Hc. destruct (C c Hc) as (U & F). split; auto.
    destruct (in_dec Nat.eq_dec a (c_pts c)) as [I|I].
    + assert (N : forall f, o <> OFormat f).
      { intros f ->. apply Safe. exists c. auto. }
      destruct (point_step_keeps_format _ _ _ Eq N). eapply uniform_hset; eauto.
    + intros b Hb. destruct (U b Hb) as (x & Hx & Rest). exists x. split; auto. rewrite nth_hset_ne; auto. intros ->; auto.
  - destruct (new_points fmt eb) as [c| |] eqn:E; cbn [bind] in H; try discriminate. injection H as <-.
    split; cbn; auto. apply Forall_app. split; [apply Forall_forall; auto|]. constructor; auto.
    unfold new_points in E. destruct ((fmt <? 0) || (10 <? fmt)); [discriminate|].
    unfold point_byte_size, base_size in E.
    assert (6 <= fmt <= 8 /\ c_pts c = [] /\ c_fmt c = fmt) as (Hf & Hp & Hcf).
    { destruct (Z.eqb_spec fmt 6); [cbn in E; injection E as <-; cbn; auto with zarith|].
      destruct (Z.eqb_spec fmt 7); [cbn in E; injection E as <-; cbn; auto with zarith|].
      destruct (Z.eqb_spec fmt 8); [cbn in E; injection E as <-; cbn; auto with zarith|]. discriminate. }
    split; [|lia]. intros a Ha. rewrite Hp in Ha. easy.
  - destruct (points_of_vec (st_heap s) l) as [c| |] eqn:E; cbn [bind] in H; try discriminate. injection H as <-.
    split; cbn; auto. apply Forall_app. split; [apply Forall_forall; auto|]. constructor; auto.
    unfold points_of_vec in E. destruct l as [|a l]; [discriminate|].
    destruct (hget (st_heap s) a) as [p| |] eqn:Ea; cbn [bind] in E; try discriminate.
    unfold add_points_vec in E. destruct (all_fit _ _ (a :: l)) as [[]| |] eqn:Af; cbn [bind] in E; try discriminate.
    injection E as <-. split; cbn [c_fmt c_reclen c_pts app].
    + intros b Hb. cbn [c_pts app c_fmt c_reclen] in *. exact (all_fit_ok _ _ _ Af b Hb).
    + apply hget_ok in Ea. pose proof (nth_Forall _ _ _ _ W Ea) as (Hf & _). exact Hf.
  - destruct (get_cont s c) as [c0| |] eqn:G; cbn [bind] in H; try discriminate.
    unfold create_point in H. destruct (points_eb c0) as [e| |] eqn:Ee; cbn [bind] in H; try discriminate.
    destruct (new_point (c_fmt c0) e) as [p| |] eqn:E; cbn [bind] in H; try discriminate. injection H as <-.
    destruct (GC _ _ G) as (_ & Ic). destruct (C _ Ic) as (_ & Hf).
    split; cbn.
    + apply Forall_app. split; auto. constructor; auto. eapply new_point_wf; [|exact E].
      unfold points_eb, eb_byte_size in Ee. rewrite las_base_ok in Ee by auto. cbn [bind] in Ee. injection Ee as <-.
      unfold to_u. pose proof (Z.mod_pos_bound (c_reclen c0 - las_base (c_fmt c0)) (2 ^ 16) ltac:(lia)). lia.
    + apply Forall_forall. intros x Hx. apply cont_ok_app. auto.
  - destruct (get_cont s c) as [c0| |] eqn:G; cbn [bind] in H; try discriminate.
    unfold add_point in H. destruct (fits (st_heap s) c0 a) as [t| |] eqn:E; cbn [bind] in H; try discriminate.
    destruct t; cbn [bind] in H; [|discriminate]. injection H as <-. destruct (GC _ _ G) as (_ & Ic). destruct (C _ Ic) as (U & Hf).
    eapply Upd; eauto. split; auto. intros b Hb. cbn [c_pts c_fmt c_reclen] in *. apply in_app_iff in Hb.
    destruct Hb as [Hb|[<-|[]]]; [auto|now apply fits_true].
  - destruct (get_cont s c) as [c0| |] eqn:G; cbn [bind] in H; try discriminate.
    destruct (get_cont s d) as [d0| |] eqn:G'; cbn [bind] in H; try discriminate.
    unfold add_points in H. destruct (negb (c_fmt d0 =? c_fmt c0) || negb (c_reclen d0 =? c_reclen c0)) eqn:E;
      cbn [bind] in H; [discriminate|]. injection H as <-.
    destruct (GC _ _ G) as (_ & Ic). destruct (C _ Ic) as (U & Hf).
    destruct (GC _ _ G') as (_ & Id). destruct (C _ Id) as (U' & _).
    eapply Upd; eauto. split; auto. intros b Hb. cbn [c_pts c_fmt c_reclen] in *. apply in_app_iff in Hb.
    destruct Hb as [Hb|Hb]; [auto|]. destruct (U' b Hb) as (p & Hp & E1 & E2). exists p. split; auto. lia.
  - destruct (get_cont s c) as [c0| |] eqn:G; cbn [bind] in H; try discriminate.
    unfold add_points_vec in H. destruct (all_fit (st_heap s) c0 l) as [[]| |] eqn:E; cbn [bind] in H; try discriminate.
    injection H as <-. destruct (GC _ _ G) as (_ & Ic). destruct (C _ Ic) as (U & Hf).
    eapply Upd; eauto. split; auto. intros b Hb. cbn [c_pts c_fmt c_reclen] in *. apply in_app_iff in Hb.
    destruct Hb as [Hb|Hb]; [auto|]. now apply (all_fit_ok _ _ _ E).
  - destruct (get_cont s c) as [c0| |] eqn:G; cbn [bind] in H; try discriminate.
    destruct (points_to_format fmt (st_heap s) c0) as [(h', c')| |] eqn:E; cbn [bind] in H; try discriminate.
    injection H as <-. destruct (GC _ _ G) as (Nc & Ic). destruct Safe as (Sh & Big).
    destruct (points_to_format_spec _ _ _ _ _ W (C _ Ic) (Big _ Nc) E) as (W' & K & F' & P' & L' & O').
    split; cbn; auto. apply Forall_forall. intros x Hx.
    apply In_nth_error in Hx. destruct Hx as (j & Hj).
    destruct (Nat.eq_dec c j) as [<-|Nj].
    + rewrite (set_nth_nth_eq _ _ _ _ Nc) in Hj. injection Hj as <-. exact K.
    + rewrite set_nth_nth_ne in Hj by auto. destruct (C x (nth_error_In _ _ Hj)) as (U & Hf). split; auto.
      intros a Ha. rewrite O'; [now apply U|]. intros Ia. apply (Sh j). split; auto.
      exists c0, x, a. auto.
  - destruct (points_unpack (st_heap s) data fmt eb scale offset) as [(h', c')| |] eqn:E; cbn [bind] in H; try discriminate.
    injection H as <-. destruct Wo as (Wd & He).
    unfold points_unpack in E.
    destruct (point_byte_size fmt eb) as [rl| |] eqn:Er; cbn [bind] in E; try discriminate.
    destruct (rl =? 0); [discriminate|]. destruct (negb _); [discriminate|].
    destruct (new_points fmt eb) as [c| |] eqn:En; cbn [bind] in E; try discriminate.
    destruct (INT32_MAX <? _); [discriminate|].
    assert (K0 : cont_ok (st_heap s) c).
    { unfold new_points in En. destruct ((fmt <? 0) || (10 <? fmt)); [discriminate|]. rewrite Er in En. cbn [bind] in En.
      injection En as <-. split; [intros a []|]. unfold point_byte_size, base_size in Er. cbn [c_fmt].
      destruct (Z.eqb_spec fmt 6); [lia|]. destruct (Z.eqb_spec fmt 7); [lia|]. destruct (Z.eqb_spec fmt 8); [lia|]. discriminate. }
    clear En. cbn [st_heap st_conts].
    enough (Hh : Forall wf_point h' /\ cont_ok h' c' /\ exists t, h' = st_heap s ++ t).
    { destruct Hh as (Wh & Kc & t & ->). split; cbn; auto. apply Forall_app. split; [|constructor; auto].
      apply Forall_forall. intros x Hx. apply cont_ok_app. auto. }
    set (n := Z.to_nat (Z.of_nat (length data) / rl)) in *. clearbody n.
    clear C GC Upd Safe.
    revert data c E Wd K0 W. generalize (st_heap s) as h. induction n as [|n IH]; intros h data c E Wd K0 W.
    + cbn in E. injection E as <- <-. split; auto. split; auto. exists []. now rewrite app_nil_r.
    + cbn [unpack_loop] in E. destruct (point_unpack data fmt scale offset eb) as [(p, r)| |] eqn:Eu; cbn [bind] in E; try discriminate.
      destruct (unpack_inv _ _ _ _ _ _ _ Wd He Eu) as (x & y & z & _ & _ & _ & Eb & Wr & Wp & _).
      unfold add_point in E. destruct (fits (h ++ [p]) c (length h)) as [t| |] eqn:Ef; cbn [bind] in E; try discriminate.
      destruct t; cbn [bind] in E; [|discriminate].
      destruct (IH _ _ _ E Wr) as (Wh & Kc & t & ->).
      * destruct K0 as (U & F). split; [|exact F]. intros b Hb. cbn [c_pts c_fmt c_reclen] in *. apply in_app_iff in Hb.
        destruct Hb as [Hb|[<-|[]]]; [exact (uniform_app h [p] c U b Hb)|now apply fits_true].
      * apply Forall_app. split; auto.
      * split; auto. split; auto. exists (p :: t). now rewrite <- app_assoc.
  - destruct (get_cont s c) as [c0| |] eqn:G; cbn [bind] in H; try discriminate.
    unfold array_set_f, array_set in H. destruct (negb _) eqn:En; cbn [bind] in H; [discriminate|].
    destruct (array_set_loop _ _ _) as [h'| |] eqn:E; cbn [bind] in H; try discriminate. injection H as <-.
    apply (array_set_loop_spec _ wf_point same_format same_format_refl same_format_trans) in E; auto.
    + destruct E as (W' & _ & Hr & _). split; cbn; auto. apply Forall_forall. intros x Hx. destruct (C x Hx) as (U & F).
      split; auto. eapply uniform_same_format; eauto.
    + intros v p q Wp Eq. injection Eq as <-. now apply fdim_set_wf.
  - destruct (get_cont s c) as [c0| |] eqn:G; cbn [bind] in H; try discriminate.
    unfold array_set_z, array_set in H. destruct (negb _) eqn:En; cbn [bind] in H; [discriminate|].
    destruct (array_set_loop _ _ _) as [h'| |] eqn:E; cbn [bind] in H; try discriminate. injection H as <-.
    apply negb_false_iff, Nat.eqb_eq in En.
    apply (array_set_loop_Forall _ (zdim_arg d) wf_point same_format same_format_refl same_format_trans) in E; auto.
    + destruct E as (W' & Hr). split; cbn; auto. apply Forall_forall. intros x Hx. destruct (C x Hx) as (U & F).
      split; auto. eapply uniform_same_format; eauto.
    + intros v p q. apply zdim_set_wf.
    + rewrite map_snd_combine by auto. destruct d; exact Wo.
Qed.

Lemma preach_inv s : preach s -> ps_inv s.
Proof.
  induction 1 as [|s o s' _ IH Wo Safe H|s o _ IH _ _]; auto.
  - split; constructor.
  - eapply point_run_step_inv; eauto.
Qed.
