(* ProofOrder.v - the order of AddNode calls does not matter *)
From Coq Require Import Permutation.
From Verif Require Import Base BaseFacts ModelFloat ModelKey ModelGeom ModelEntry ModelPoint ModelPoints ModelHeader ModelVlr ModelExtents ModelConfig
  ModelStream ModelWriter ModelReader SpecKey SpecPoint SpecConfig SpecWriter SpecHier SpecFile SpecReader SpecData SpecRound SpecCopy SpecOrder
  ProofKey ProofStream ProofConfig ProofWriter ProofWriter2 ProofWriter4 ProofClose2 ProofSession ProofResults ProofReject ProofCount ProofRound ProofMp3.
Open Scope Z_scope.

(* whether a call is accepted, as a function of the call and the configuration *)
Definition forget {A} (o : outcome A) : outcome unit := match o with Ok _ => Ok tt | Throw => Throw | UB => UB end.
Definition chunk_verdict (cd : codec) (h : las_header) (data : bytes) (count : Z) (compressed : bool) : outcome unit :=
  let! p := chunk_source cd h data count compressed in
  if INT32_MAX <? Z.of_nat (length (fst p)) then Throw else Ok tt.
Definition key_verdict (k page : key) (o : outcome unit) : outcome unit :=
  if negb (key_valid page) || negb (key_valid k) then Throw else if negb (child_of k page) then Throw else o.
Definition add_verdict (cd : codec) (h : las_header) (k : key) (data : bytes) (page : key) : outcome unit :=
  match data with
  | [] => Throw
  | _ => if h_reclen h =? 0 then UB else if negb (Z.of_nat (length data) mod h_reclen h =? 0) then Throw
         else key_verdict k page (chunk_verdict cd h data 0 false)
  end.
Definition verdict (cd : codec) (h : las_header) (op : wop) : outcome unit :=
  match op with
  | WAdd k data page => add_verdict cd h k data page
  | WAddPoints k hp c page =>
      match c_pts c with
      | [] => Throw
      | _ => if negb (c_fmt c =? h_fmt h) || negb (c_reclen c =? h_reclen h) then Throw
             else let! data := points_pack hp c (h_scale h) (h_offset h) in add_verdict cd h k data page
      end
  | WAddCompressed k data count page => if count =? 0 then Throw else key_verdict k page (chunk_verdict cd h data count true)
  | _ => Throw
  end.
Lemma write_verdict cd h data count compressed b b' o : at_end (b_out b) -> 0 < Z.of_nat (length (o_data (b_out b))) -> Z.of_nat (length (o_data (b_out b'))) < 2 ^ 63 ->
  write_chunk cd h data count compressed b = (b', o) -> forget o = chunk_verdict cd h data count compressed.
Proof.
  intros AE POS SM H. unfold write_chunk in H. cbv zeta in H. fold (chunk_source cd h data count compressed) in H. unfold chunk_verdict.
  assert (G : good_out (b_out b)) by (destruct AE as (A & B & _); split; auto). assert (PO : o_pos (b_out b) = length (o_data (b_out b))) by apply AE.
  destruct (Z.ltb_spec (Z.of_nat (length (o_data (b_out b)))) (2 ^ 63)) as [SB|BIG].
  2:{ exfalso. pose proof (write_chunk_grows cd h data count compressed b b' o AE) as GR. unfold write_chunk in GR. cbv zeta in GR. fold (chunk_source cd h data count compressed) in GR. destruct (GR H) as (_ & x & E). rewrite E, app_length in SM. lia. }
  rewrite (tell64_small _ G) in H by (rewrite PO; lia). rewrite PO in H. destruct (Z.leb_spec (Z.of_nat (length (o_data (b_out b)))) 0); [lia|].
  destruct (chunk_source cd h data count compressed) as [(x, n)| |]; cbn [bind fst]; [|apply (f_equal snd) in H; cbn [snd] in H; now subst o..].
  rewrite put_end in H by exact AE. set (out := mkOut _ _ _ _) in H. assert (LX : Z.of_nat (length (o_data out)) < 2 ^ 63).
  { destruct (_ <=? 0) in H; [|destruct (_ <? _) in H]; apply (f_equal fst) in H; cbn [fst] in H; subst b'; exact SM. }
  subst out. cbn [o_data] in LX. rewrite app_length, Nat2Z.inj_add in LX.
  rewrite tell64_small in H; [|split; reflexivity|cbn [o_pos]; rewrite app_length, Nat2Z.inj_add; lia]. cbn [o_pos] in H. rewrite app_length, Nat2Z.inj_add in H.
  destruct (Z.leb_spec (Z.of_nat (length (o_data (b_out b))) + Z.of_nat (length x)) 0) in H; [lia|]. unfold to_u in H.
  replace (Z.of_nat (length (o_data (b_out b))) + Z.of_nat (length x) - Z.of_nat (length (o_data (b_out b)))) with (Z.of_nat (length x)) in H by lia. rewrite (Z.mod_small (Z.of_nat (length x))) in H by lia.
  destruct (INT32_MAX <? Z.of_nat (length x)); apply (f_equal snd) in H; cbn [snd] in H; now subst o.
Qed.
Lemma do_add_verdict cd k data count compressed page w w' o : at_end (b_out (w_base w)) -> 0 < Z.of_nat (length (file w)) -> Z.of_nat (length (file w')) < 2 ^ 63 ->
  do_add_node cd k data count compressed page w = (w', o) -> forget o = key_verdict k page (chunk_verdict cd (c_hdr (w_cfg w)) data count compressed).
Proof.
  intros AE POS SM H. unfold do_add_node in H. unfold key_verdict. destruct (negb _ || negb _); [apply (f_equal snd) in H; cbn [snd] in H; now subst o|]. destruct (negb (child_of k page)); [apply (f_equal snd) in H; cbn [snd] in H; now subst o|].
  destruct (write_chunk cd (c_hdr (w_cfg w)) data count compressed (w_base w)) as (b, r) eqn:E.
  assert (B : Z.of_nat (length (o_data (b_out b))) < 2 ^ 63).
  { destruct r as [((off, size), n)| |]; apply (f_equal fst) in H; cbn [fst] in H; subst w'; exact SM. }
  rewrite <- (write_verdict _ _ _ _ _ _ _ _ AE POS B E). destruct r as [((off, size), n)| |]; apply (f_equal snd) in H; cbn [snd] in H; now subst o.
Qed.
Lemma add_verdict_ok cd k data page w w' o : at_end (b_out (w_base w)) -> 0 < Z.of_nat (length (file w)) -> Z.of_nat (length (file w')) < 2 ^ 63 ->
  add_node cd k data page w = (w', o) -> forget o = add_verdict cd (c_hdr (w_cfg w)) k data page.
Proof.
  intros AE POS SM H. unfold add_node in H. cbv zeta in H. unfold add_verdict. destruct data as [|z d]; [apply (f_equal snd) in H; cbn [snd] in H; now subst o|]. set (data := z :: d) in *.
  destruct (h_reclen (c_hdr (w_cfg w)) =? 0); [apply (f_equal snd) in H; cbn [snd] in H; now subst o|]. destruct (negb _); [apply (f_equal snd) in H; cbn [snd] in H; now subst o|].
  eapply do_add_verdict; eauto.
Qed.
Lemma step_verdict cd op w w' o : at_end (b_out (w_base w)) -> 0 < Z.of_nat (length (file w)) -> Z.of_nat (length (file w')) < 2 ^ 63 -> add_keys op <> None ->
  wstep cd op w = (w', o) -> forget o = verdict cd (c_hdr (w_cfg w)) op /\ (forall x, o = Ok x -> exists n, x = Some n).
Proof.
  intros AE POS SM A H. assert (SN : forall (x : writer * outcome node) v, (forall w2 o2, x = (w2, o2) -> Z.of_nat (length (file w2)) < 2 ^ 63 -> forget o2 = v) -> some_node x = (w', o) -> forget o = v /\ (forall y, o = Ok y -> exists n, y = Some n)).
  { intros (w2, o2) v F E. destruct o2 as [n| |]; cbn [some_node] in E; pose proof (f_equal fst E) as E1; apply (f_equal snd) in E; cbn [fst snd] in E, E1; subst w2 o; (split; [exact (F _ _ eq_refl SM)|]); intros y Y; try discriminate. exists n. congruence. }
  destruct op; cbn [add_keys] in A; try congruence; cbn [wstep] in H; eapply SN; try exact H; intros w2 o2 E S2; cbn [verdict].
  - eapply add_verdict_ok; eauto.
  - unfold add_node_points in E. cbv zeta in E. destruct (c_pts c) as [|a l]; [apply (f_equal snd) in E; cbn [snd] in E; now subst o2|].
    destruct (negb _ || negb _); [apply (f_equal snd) in E; cbn [snd] in E; now subst o2|].
    destruct (points_pack hp c _ _) as [data'| |]; cbn [bind]; [|apply (f_equal snd) in E; cbn [snd] in E; now subst o2..]. eapply add_verdict_ok; eauto.
  - unfold add_node_compressed in E. destruct (count =? 0); [apply (f_equal snd) in E; cbn [snd] in E; now subst o2|]. eapply do_add_verdict; eauto.
Qed.
Lemma fixed_verdict cd a b op : fixed_parts a b -> verdict cd (c_hdr b) op = verdict cd (c_hdr a) op.
Proof.
  intros (A & B & C & D & _). assert (CV : forall d n z, chunk_verdict cd (c_hdr b) d n z = chunk_verdict cd (c_hdr a) d n z) by (intros; unfold chunk_verdict, chunk_source, h_eb_size; rewrite A, B; reflexivity).
  assert (AV : forall k d p, add_verdict cd (c_hdr b) k d p = add_verdict cd (c_hdr a) k d p) by (intros; unfold add_verdict; rewrite B, CV; reflexivity).
  destruct op; cbn [verdict]; rewrite ?A, ?B, ?C, ?D, ?AV, ?CV; try reflexivity. destruct (c_pts c); [reflexivity|]. destruct (negb _ || negb _); [reflexivity|]. destruct (points_pack _ _ _ _); cbn [bind]; auto.
Qed.

(* every call of a session was decided so *)
Lemma log_verdict cd od c v c0 ops l w op o : complete_session cd od c v c0 ops l w -> Z.of_nat (length (file w)) < 2 ^ 63 -> In (op, o) l -> add_keys op <> None ->
  forget o = verdict cd (c_hdr c0) op /\ (forall x, o = Ok x -> exists n, x = Some n).
Proof.
  intros ((w0 & w1 & O & R & CL) & E & RD & WF & RO & AD & L) SM I A. pose proof (close_ge _ _ _ _ _ CL) as GE.
  destruct (open_inv _ _ _ _ O E RD) as (C & G & S & B & HI). apply in_split in I as (l1 & l2 & ->).
  destruct (wrun_split _ _ _ _ _ _ _ R) as (o1 & o2 & wm & wm' & -> & R1 & R2 & R3). cbn [fst snd] in *.
  assert (NU : o <> UB) by (unfold all_defined in AD; apply Forall_app in AD as (_ & AD); exact (Forall_inv AD)). specialize (R3 NU).
  apply Forall_app in WF as (WF1 & _). pose proof (wrun_grows _ _ _ _ _ (proj1 B) R1) as G1. pose proof (wstep_grows _ _ _ _ _ (proj1 G1) R2) as G2.
  pose proof (wrun_grows _ _ _ _ _ (proj1 G2) R3) as G3. pose proof (grows_le _ _ G1) as L1. pose proof (grows_le _ _ G2) as L2. pose proof (grows_le _ _ G3) as L3.
  destruct (run_history _ _ _ _ _ _ _ _ O E RD WF1 R1 ltac:(lia)) as (cs & HS).
  assert (P0 : 0 < Z.of_nat (length (file wm))). { destruct B as (_ & BD & _). unfold file in L1 at 1. rewrite BD, app_length, zeros_length in L1. lia. }
  assert (SM' : Z.of_nat (length (file wm')) < 2 ^ 63) by lia. destruct (step_verdict _ _ _ _ _ (proj1 G1) P0 SM' A R2) as (V & N). split; [|exact N]. rewrite V. apply fixed_verdict, (hs_fix _ _ _ _ _ _ HS).
Qed.

(* ---- where the nodes are ---- *)
Lemma keys_of_step x : (forall k p, fst x <> WMove k p) -> (exists op k n p, x = (op, Ok (Some n)) /\ add_keys op = Some (k, p) /\ forall v, see v x = set_view k (n, p) v) \/ ((forall op n, x = (op, Ok (Some n)) -> add_keys op = None) /\ forall v, see v x = v).
Proof.
  destruct x as (op, o). cbn [fst]. intros NM. destruct op; try (destruct (NM k page eq_refl)); try (right; split; [intros op n [= <- _]; reflexivity|intros u; destruct o as [[|]| |]; reflexivity]);
    (destruct o as [[n|]| |]; [left; do 4 eexists; split; [reflexivity|]; split; [reflexivity|reflexivity]|right; split; [intros; discriminate|reflexivity]..]).
Qed.
Lemma view_logged_add : forall lg v k x, (forall a b o, ~ In (WMove a b, o) lg) -> fold_left see lg v k = Some x -> v k = Some x \/ exists op, In (op, Ok (Some (fst x))) lg /\ add_keys op = Some (k, snd x).
Proof.
  induction lg as [|y lg IH]; intros v k x NM H; [now left|]. cbn [fold_left] in H. apply IH in H; [|intros a b o J; apply (NM a b o); now right]. destruct H as [H|(op & J & K)]; [|right; exists op; split; [now right|exact K]].
  destruct (keys_of_step y) as [(op & k1 & n & p & -> & A & S)|(_ & S)]; [intros a b E; destruct y as (op, o); cbn [fst] in E; subst; apply (NM a b o); now left| |rewrite S in H; now left].
  rewrite S in H. unfold set_view in H. destruct (key_eqb k1 k) eqn:E; [|now left]. apply key_eqb_eq in E. subst k1. injection H as <-. right. exists op. split; [now left|exact A].
Qed.
Lemma view_kept : forall lg v k, (forall a b o, ~ In (WMove a b, o) lg) -> ~ In k (map fst (adds (map fst lg))) -> fold_left see lg v k = v k.
Proof.
  induction lg as [|y lg IH]; intros v k NM N; [reflexivity|]. cbn [fold_left]. rewrite IH; [|intros a b o J; apply (NM a b o); now right|intros J; apply N; cbn [map]; unfold adds; cbn [flat_map]; rewrite map_app; apply in_or_app; now right].
  destruct (keys_of_step y) as [(op & k1 & n & p & -> & A & S)|(_ & S)]; [intros a b E; destruct y as (op, o); cbn [fst] in E; subst; apply (NM a b o); now left| |now rewrite S].
  rewrite S. unfold set_view. destruct (key_eqb k1 k) eqn:E; [|reflexivity]. exfalso. apply N. apply key_eqb_eq in E. subst k1. cbn [map fst]. unfold adds. cbn [flat_map]. rewrite A. cbn [opt_list app map fst]. now left.
Qed.
Lemma view_added : forall lg v k op n p, (forall a b o, ~ In (WMove a b, o) lg) -> NoDup (map fst (adds (map fst lg))) -> In (op, Ok (Some n)) lg -> add_keys op = Some (k, p) -> fold_left see lg v k = Some (n, p).
Proof.
  induction lg as [|y lg IH]; intros v k op n p NM ND I A; [destruct I|]. cbn [map] in ND. unfold adds in ND. cbn [flat_map] in ND. fold (adds (map fst lg)) in ND. rewrite map_app in ND. cbn [fold_left]. assert (NM' : forall a b o, ~ In (WMove a b, o) lg) by (intros a b o J; apply (NM a b o); now right).
  destruct I as [->|I].
  - cbn [fst] in ND. rewrite A in ND. cbn [opt_list map fst app] in ND. apply NoDup_cons_iff in ND as (NI & _). rewrite view_kept by assumption.
    destruct op; cbn [add_keys] in A; try discriminate; injection A as <- <-; cbn [see]; unfold set_view; now rewrite key_eqb_refl.
  - eapply IH; eauto. clear - ND. induction (map fst (opt_list (add_keys (fst y)))) as [|a m IHm]; [exact ND|]. apply IHm. cbn [app] in ND. now apply NoDup_cons_iff in ND.
Qed.
Lemma view_settled : forall lg v, (forall a b o, ~ In (WMove a b, o) lg) -> NoDup (map fst (adds (map fst lg))) -> (forall k, In k (map fst (adds (map fst lg))) -> v k = None) -> settled_from v lg.
Proof.
  induction lg as [|y lg IH]; intros v NM ND V; [exact Logic.I|]. cbn [map] in ND, V. unfold adds in ND, V. cbn [flat_map] in ND, V. fold (adds (map fst lg)) in ND, V. rewrite map_app in ND, V. cbn [settled_from]. assert (NM' : forall a b o, ~ In (WMove a b, o) lg) by (intros a b o J; apply (NM a b o); now right).
  split.
  - destruct y as (op, o). cbn [fst] in *. destruct op; cbn [calm add_keys opt_list map fst app] in *; try exact Logic.I; try (destruct o; try exact Logic.I; intros n q Q; rewrite V in Q by (now left); discriminate).
    destruct (NM k page o). now left.
  - apply IH; [exact NM'| |].
    + clear - ND. induction (map fst (opt_list (add_keys (fst y)))) as [|a m IHm]; [exact ND|]. apply IHm. cbn [app] in ND. now apply NoDup_cons_iff in ND.
    + intros k K. destruct (keys_of_step y) as [(op & k1 & n & p & -> & A & S)|(_ & S)]; [intros a b E; destruct y as (op, o); cbn [fst] in E; subst; apply (NM a b o); now left| |rewrite S; apply V, in_or_app; now right].
      rewrite S. unfold set_view. destruct (key_eqb k1 k) eqn:E; [|apply V, in_or_app; now right]. exfalso. apply key_eqb_eq in E. subst k1. cbn [fst] in ND. rewrite A in ND. cbn [opt_list map fst app] in ND. apply NoDup_cons_iff in ND as (NI & _). contradiction.
Qed.

(* ---- the calls of two sessions ---- *)
Lemma adds_perm ops ops' : Permutation ops ops' -> Permutation (adds ops) (adds ops').
Proof. intros P. unfold adds. now apply Permutation_flat_map. Qed.
Lemma once_perm ops ops' : Permutation ops ops' -> once_each ops -> once_each ops'.
Proof.
  intros P (A & B). split; [intros k p I; apply (A k p); eapply Permutation_in; [apply Permutation_sym; exact P|exact I]|]. eapply Permutation_NoDup; [|exact B]. apply Permutation_map, adds_perm, P.
Qed.
Lemma session_ops cd od c v c0 ops l w : complete_session cd od c v c0 ops l w -> map fst l = ops.
Proof. intros ((w0 & w1 & O & R & CL) & E & RD & WF & RO & AD & L). eapply wrun_ops; eauto. Qed.
Lemma no_moves_logged ops (l : log) : map fst l = ops -> once_each ops -> (forall a b o, ~ In (WMove a b, o) l) /\ NoDup (map fst (adds (map fst l))).
Proof. intros <- (A & B). split; [|exact B]. intros a b o I. apply (A a b). apply (in_map fst) in I. exact I. Qed.
Lemma once_settled cd od c v c0 ops l w : complete_session cd od c v c0 ops l w -> once_each ops -> settled l.
Proof. intros S OE. destruct (no_moves_logged ops l (session_ops _ _ _ _ _ _ _ _ S) OE) as (A & B). apply view_settled; auto. Qed.
(* the nodes of a session whose calls add every node at most once *)
Lemma view_iff cd c0 ops l w k n p : written cd c0 ops l w -> once_each ops -> (view_of l k = Some (n, p) <-> exists op, In (op, Ok (Some n)) l /\ add_keys op = Some (k, p)).
Proof.
  intros ((od & c & v & S) & _) OE. destruct (no_moves_logged ops l (session_ops _ _ _ _ _ _ _ _ S) OE) as (A & B). split.
  - intros V. apply view_logged_add in V as [V|V]; [discriminate|exact V|exact A].
  - intros (op & I & K). eapply view_added; eauto.
Qed.
Lemma accepted_elsewhere cd c0 ops l w ops' l' w' op n : written cd c0 ops l w -> written cd c0 ops' l' w' -> Permutation ops ops' -> In (op, Ok (Some n)) l ->
  exists n', In (op, Ok (Some n')) l' /\ shape n' = shape n /\ n_page n = n_page n'.
Proof.
  intros ((od & c & v & S) & _ & _ & F) ((od' & c' & v' & S') & _ & _ & F') P I. destruct (chunk_kept _ _ _ _ _ _ _ _ _ _ S I) as (x & CO & K & SZ & _).
  assert (NN : add_keys op <> None) by congruence. destruct (log_verdict _ _ _ _ _ _ _ _ _ _ S F I NN) as (V & _).
  assert (J : In op (map fst l')). { rewrite (session_ops _ _ _ _ _ _ _ _ S'). eapply Permutation_in; [exact P|]. rewrite <- (session_ops _ _ _ _ _ _ _ _ S). apply (in_map fst) in I. exact I. }
  apply in_map_iff in J as ((op', o) & Q & J). cbn [fst] in Q. subst op'. destruct (log_verdict _ _ _ _ _ _ _ _ _ _ S' F' J NN) as (V' & N'). rewrite <- V in V'. destruct o as [x'| |]; try discriminate V'. destruct (N' x' eq_refl) as (n' & ->).
  exists n'. split; [exact J|]. destruct (chunk_kept _ _ _ _ _ _ _ _ _ _ S' J) as (x' & CO' & K' & SZ' & _). assert (Q : Some (x, e_count (n_entry n)) = Some (x', e_count (n_entry n'))) by congruence. injection Q as <- C.
  assert (Q : Some (e_key (n_entry n), n_page n) = Some (e_key (n_entry n'), n_page n')) by congruence. injection Q as QK QP. split; [|exact QP]. unfold shape, n_key. rewrite QK, QP, C, SZ, SZ'. reflexivity.
Qed.
Lemma view_elsewhere cd c0 ops l w ops' l' w' k n p : written cd c0 ops l w -> written cd c0 ops' l' w' -> Permutation ops ops' -> once_each ops -> view_of l k = Some (n, p) ->
  exists n' op, view_of l' k = Some (n', p) /\ shape n' = shape n /\ add_keys op = Some (k, p) /\ In (op, Ok (Some n)) l /\ In (op, Ok (Some n')) l'.
Proof.
  intros W W' P OE V. pose proof (once_perm _ _ P OE) as OE'. apply (view_iff _ _ _ _ _ _ _ _ W OE) in V as (op & I & K). destruct (accepted_elsewhere _ _ _ _ _ _ _ _ _ _ W W' P I) as (n' & I' & SH & _).
  exists n', op. split; [apply (view_iff _ _ _ _ _ _ _ _ W' OE'); eauto|]. auto.
Qed.
Lemma view_none_elsewhere cd c0 ops l w ops' l' w' k : written cd c0 ops l w -> written cd c0 ops' l' w' -> Permutation ops ops' -> once_each ops -> view_of l k = None -> view_of l' k = None.
Proof.
  intros W W' P OE V. destruct (view_of l' k) as [(n, p)|] eqn:V'; [|reflexivity]. destruct (view_elsewhere _ _ _ _ _ _ _ _ _ _ _ W' W (Permutation_sym P) (once_perm _ _ P OE) V') as (n' & op & Q & _). congruence.
Qed.
(* the configuration *)
Lemma step_add_cfg cd op w w' o : add_keys op <> None -> wstep cd op w = (w', o) -> w_cfg w' = w_cfg w.
Proof.
  intros A H. assert (DA : forall k d n z p, w_cfg (fst (do_add_node cd k d n z p w)) = w_cfg w).
  { intros. unfold do_add_node. destruct (negb _ || negb _); [reflexivity|]. destruct (negb _); [reflexivity|]. destruct (write_chunk _ _ _ _ _ _) as (b, [((off, size), m)| |]); reflexivity. }
  assert (AN : forall k d p, w_cfg (fst (add_node cd k d p w)) = w_cfg w).
  { intros. unfold add_node. cbv zeta. destruct d; [reflexivity|]. destruct (_ =? 0); [reflexivity|]. destruct (negb _); [reflexivity|]. apply DA. }
  assert (SN : forall x, w_cfg (fst x) = w_cfg w -> some_node x = (w', o) -> w_cfg w' = w_cfg w) by (intros (w2, [n| |]) Q E; cbn [some_node] in E; apply (f_equal fst) in E; cbn [fst] in *; now subst).
  destruct op; cbn [add_keys] in A; try congruence; cbn [wstep] in H; (eapply SN; [|exact H]); [apply AN| |].
  - unfold add_node_points. cbv zeta. destruct (c_pts c); [reflexivity|]. destruct (negb _ || negb _); [reflexivity|]. destruct (points_pack _ _ _ _); [apply AN|reflexivity..].
  - unfold add_node_compressed. destruct (_ =? 0); [reflexivity|apply DA].
Qed.
(* a configuration change, on the configuration alone *)
Definition change (c : config) (op : wop) : config :=
  match op with
  | WSetHeader h => match edit_header (c_hdr c) h with Ok h => mkCfg h (c_wkt c) (c_ebs c) (c_info c) (c_exts c) | _ => c end
  | WSetInfo i => mkCfg (c_hdr c) (c_wkt c) (c_ebs c) i (c_exts c)
  | WSetExtent slot e => match set_nth slot e (xs_items (c_exts c)) with Ok l => mkCfg (c_hdr c) (c_wkt c) (c_ebs c) (c_info c) (mkExts (xs_fmt (c_exts c)) (xs_ext (c_exts c)) l) | _ => c end
  | _ => c
  end.
Lemma run_changes cd : forall ops w w' l, wrun cd ops w = (w', l) -> all_defined l -> (forall k p, ~ In (WMove k p) ops) -> w_cfg w' = fold_left change (changes ops) (w_cfg w).
Proof.
  induction ops as [|op ops IH]; intros w w' l H AD NM; cbn [wrun] in H; [apply (f_equal fst) in H; cbn [fst] in H; now subst|]. destruct (wstep cd op w) as (w1, o) eqn:E.
  assert (R : exists l2, wrun cd ops w1 = (w', l2) /\ all_defined l2).
  { destruct o; [destruct (wrun cd ops w1) as (w2, l2); apply pair_equal_spec in H as (-> & <-); exists l2; split; [reflexivity|now apply Forall_inv_tail in AD]..|]. apply (f_equal snd) in H. cbn [snd] in H. subst l. apply Forall_inv in AD. cbn [snd] in AD. congruence. }
  destruct R as (l2 & R & AD2). rewrite (IH _ _ _ R AD2) by (intros k p I; apply (NM k p); now right). unfold changes. cbn [filter]. destruct (add_keys op) eqn:A.
  - assert (AN : add_keys op <> None) by congruence. rewrite (step_add_cfg _ _ _ _ _ AN E). reflexivity.
  - fold (changes ops). cbn [fold_left]. f_equal. destruct op; cbn [add_keys] in A; try discriminate; cbn [wstep change] in *.
    + destruct (NM k page). now left.
    + destruct (edit_header _ _); apply (f_equal fst) in E; cbn [fst] in E; now subst.
    + apply (f_equal fst) in E; cbn [fst] in E; now subst.
    + destruct (set_nth _ _ _); apply (f_equal fst) in E; cbn [fst] in E; now subst.
Qed.
Lemma session_end cd od c v c0 ops l w : complete_session cd od c v c0 ops l w -> once_each ops ->
  let e := fold_left change (changes ops) c0 in c_hdr (w_cfg w) = c_hdr e /\ c_wkt (w_cfg w) = c_wkt e /\ c_ebs (w_cfg w) = c_ebs e /\ c_exts (w_cfg w) = c_exts e /\ same_cube (c_info e) (c_info (w_cfg w)).
Proof.
  intros S (NM & _). destruct (complete_closed _ _ _ _ _ _ _ _ S) as (w0 & w1 & cs & PG & ws & h & O & R & HS & C & RO & L & AD). destruct S as (_ & IW & RD & _).
  destruct (open_inv _ _ _ _ O IW RD) as (CF & _). pose proof (run_changes _ _ _ _ _ R AD NM) as E. rewrite CF in E. cbv zeta. rewrite <- E. rewrite (cl_cfg _ _ _ _ _ _ _ _ C). destruct (cfg_with_parts (w_cfg w1) ws) as (-> & -> & -> & ->). repeat (split; [reflexivity|]).
  unfold ProofPages.cfg_with. destruct (find_page root_key ws); repeat split.
Qed.
Lemma same_end cd c0 ops l w ops' l' w' : written cd c0 ops l w -> written cd c0 ops' l' w' -> rearranged ops ops' -> once_each ops ->
  c_hdr (w_cfg w') = c_hdr (w_cfg w) /\ c_wkt (w_cfg w') = c_wkt (w_cfg w) /\ c_ebs (w_cfg w') = c_ebs (w_cfg w) /\ c_exts (w_cfg w') = c_exts (w_cfg w) /\ same_cube (c_info (w_cfg w)) (c_info (w_cfg w')).
Proof.
  intros ((od & c & v & S) & _) ((od' & c' & v' & S') & _) (P & Q) OE. destruct (session_end _ _ _ _ _ _ _ _ S OE) as (A1 & A2 & A3 & A4 & A5). destruct (session_end _ _ _ _ _ _ _ _ S' (once_perm _ _ P OE)) as (B1 & B2 & B3 & B4 & B5).
  rewrite <- Q in *. unfold same_cube in *. intuition congruence.
Qed.
(* the number of points *)
Definition taken (cd : codec) (h : las_header) (op : wop) : list (bytes * Z) := match verdict cd h op with Ok _ => opt_list (chunk_of cd h op) | _ => [] end.
Lemma chunks_taken cd h (l : log) : (forall op o, In (op, o) l -> add_keys op <> None -> forget o = verdict cd h op /\ (forall x, o = Ok x -> exists n, x = Some n)) -> chunks_of cd h l = flat_map (taken cd h) (map fst l).
Proof.
  induction l as [|(op, o) l IH]; intros H; [reflexivity|]. unfold chunks_of in *. cbn [map flat_map fst]. rewrite IH by (intros; apply H; [now right|assumption]). f_equal.
  unfold taken. destruct (add_keys op) as [q|] eqn:A.
  - assert (AN : add_keys op <> None) by congruence. destruct (H op o (or_introl eq_refl) AN) as (V & N). rewrite <- V. destruct o as [x| |]; cbn [forget]; [destruct (N x eq_refl) as (n & ->); reflexivity|reflexivity..].
  - assert (CO : chunk_of cd h op = None) by (destruct op; try discriminate; reflexivity). rewrite CO. cbn [opt_list]. destruct (verdict cd h op), o as [[n|]| |]; reflexivity.
Qed.
Lemma total_perm cs cs' : Permutation cs cs' -> total_points cs = total_points cs'.
Proof. unfold total_points. induction 1; cbn [fold_right]; lia. Qed.
Lemma same_chunks cd c0 ops l w ops' l' w' : written cd c0 ops l w -> written cd c0 ops' l' w' -> Permutation ops ops' -> Permutation (chunks_of cd (c_hdr c0) l) (chunks_of cd (c_hdr c0) l').
Proof.
  intros ((od & c & v & S) & _ & _ & F) ((od' & c' & v' & S') & _ & _ & F') P. rewrite (chunks_taken cd (c_hdr c0) l (fun op o => log_verdict _ _ _ _ _ _ _ _ op o S F)), (chunks_taken cd (c_hdr c0) l' (fun op o => log_verdict _ _ _ _ _ _ _ _ op o S' F')). rewrite (session_ops _ _ _ _ _ _ _ _ S), (session_ops _ _ _ _ _ _ _ _ S'). now apply Permutation_flat_map.
Qed.
Lemma nodup_map {A B} (f : A -> B) (l : list A) : (forall x y, In x l -> In y l -> f x = f y -> x = y) -> NoDup l -> NoDup (map f l).
Proof.
  intros H N. induction N as [|a l NI N IH]; [constructor|]. cbn [map]. constructor.
  - intros I. apply in_map_iff in I as (b & E & I). apply NI. now rewrite (H a b (or_introl eq_refl) (or_intror I) (eq_sym E)).
  - apply IH. intros x y X Y. apply H; now right.
Qed.
Lemma exts_ext x y : xs_fmt x = xs_fmt y -> xs_ext x = xs_ext y -> xs_items x = xs_items y -> x = y.
Proof. destruct x, y. cbn. congruence. Qed.
