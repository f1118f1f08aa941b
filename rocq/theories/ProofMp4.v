(* ProofMp4.v - what a transformed file holds *)
From Coq Require Import Permutation.
From Verif Require Import Base BaseFacts ModelFloat ModelKey ModelGeom ModelEntry ModelPoint ModelPoints ModelHeader ModelVlr ModelExtents ModelConfig
  ModelStream ModelWriter ModelReader ModelPickle ModelMp SpecKey SpecPoint SpecPoints SpecConfig SpecWriter SpecHier SpecFile SpecReader SpecData SpecRound SpecMp
  ProofFloat ProofGeom ProofKey ProofPickle ProofPoint ProofPoints ProofConfig ProofWriter ProofWriter2 ProofWriter4 ProofClose2 ProofSession ProofResults ProofReject ProofData ProofReader4 ProofReader6 ProofOpen ProofRound ProofMp ProofMp2 ProofMp3.
Open Scope Z_scope.

Section Adds.
Variables (cd : codec) (upd : bool) (hw : las_header) (T : node -> node_data) (l l' : list node) (ds : list done) (adds : log).
Hypothesis PL : Permutation l l'.
Hypothesis FB : Forall2 (fun n d => brings cd upd hw (T n) n d) l' ds.
Hypothesis AO : adds_only adds.
Hypothesis MF : map fst adds = map add_op (stored_ones ds).
Lemma done_of n : In n l -> exists d, In d ds /\ brings cd upd hw (T n) n d.
Proof.
  intros I. apply (Permutation_in _ PL) in I. clear - FB I. induction FB as [|m e l' ds J F IH]; [destruct I|]. destruct I as [->|I]; [exists e; split; [now left|exact J]|]. destruct (IH F I) as (d & D & Q). exists d. split; [now right|exact Q].
Qed.
Lemma node_of d : In d ds -> exists n, In n l /\ brings cd upd hw (T n) n d.
Proof.
  intros I. assert (X : exists n, In n l' /\ brings cd upd hw (T n) n d).
  { clear - FB I. induction FB as [|m e l' ds J F IH]; [destruct I|]. destruct I as [->|I]; [exists m; split; [now left|exact J]|]. destruct (IH F I) as (n & D & Q). exists n. split; [now right|exact Q]. }
  destruct X as (n & N & B). exists n. split; [|exact B]. eapply Permutation_in; [apply Permutation_sym; exact PL|exact N].
Qed.
Lemma nonempty_count n d : brings cd upd hw (T n) n d -> (0 < dn_count d <-> nonempty (T n)).
Proof. intros (_ & C & _). rewrite C. unfold nonempty. destruct (c_pts (snd (T n))); cbn [length]; split; intros; [lia|congruence|discriminate|lia]. Qed.
Lemma add_of k y a q o : In (WAddCompressed k y a q, o) adds -> exists n, In n l /\ nonempty (T n) /\ n_key n = k /\ n_page n = q /\ a = Z.of_nat (length (c_pts (snd (T n)))) /\
  exists data, points_pack (fst (T n)) (snd (T n)) (h_scale hw) (h_offset hw) = Ok data /\ y = cd_comp cd (h_fmt hw) (h_reclen hw - las_base (h_fmt hw)) data.
Proof.
  intros I. apply (in_map fst) in I. rewrite MF in I. apply in_map_iff in I as (d & E & I). cbn [fst] in E. unfold stored_ones in I. apply filter_In in I as (I & C). apply Z.ltb_lt in C.
  destruct (node_of d I) as (n & N & B). pose proof (proj1 (nonempty_count n d B) C) as NE. destruct B as (B1 & B2 & (data & P & D & _) & _). unfold add_op in E. injection E as E1 E2 E3 E4.
  exists n. rewrite <- B1 at 3 4. split; [exact N|]. split; [exact NE|]. split; [exact E1|]. split; [exact E4|]. split; [congruence|]. exists data. split; [exact P|congruence].
Qed.
Hypothesis UN : forall n m, In n l -> In m l -> n_key n = n_key m -> n = m.
Lemma view_node n : In n l -> nonempty (T n) -> exists nd data, view_of adds (n_key n) = Some (nd, n_page n) /\
  In (WAddCompressed (n_key n) (cd_comp cd (h_fmt hw) (h_reclen hw - las_base (h_fmt hw)) data) (Z.of_nat (length (c_pts (snd (T n))))) (n_page n), Ok (Some nd)) adds /\
  points_pack (fst (T n)) (snd (T n)) (h_scale hw) (h_offset hw) = Ok data.
Proof.
  intros N NE. destruct (done_of n N) as (d & D & B). assert (I : In (add_op d) (map fst adds)). { rewrite MF. apply in_map. unfold stored_ones. apply filter_In. split; [exact D|]. apply Z.ltb_lt. now apply (nonempty_count n d B). }
  apply in_map_iff in I as ((op, o) & E & I). cbn [fst] in E. destruct (view_adds adds (fun _ => None) (n_key n) AO) as [(_ & NI)|(y & a & q & nd & J & V)].
  - exfalso. destruct B as (B1 & _). rewrite E in I. unfold add_op in I. rewrite B1 in I. exact (NI _ _ _ _ I).
  - destruct (add_of _ _ _ _ _ J) as (m & M & _ & K & Q & A & data & PK & Y). assert (m = n) as -> by (apply UN; auto). subst y a q. exists nd, data. unfold view_of. rewrite V. split; [reflexivity|]. split; [exact J|exact PK].
Qed.
Lemma view_none k : (forall n, In n l -> n_key n = k -> ~ nonempty (T n)) -> view_of adds k = None.
Proof.
  intros A. destruct (view_adds adds (fun _ => None) k AO) as [(E & _)|(y & a & q & nd & J & V)]; [exact E|]. exfalso. destruct (add_of _ _ _ _ _ J) as (m & M & NE & K & _). exact (A m M K NE).
Qed.
End Adds.

(* ---- bounds ---- *)
Definition bounds_in (upd : bool) (T : node -> node_data) (n : node) : list (vec3 * vec3) :=
  if upd then match c_pts (snd (T n)) with [] => [] | _ => match node_bounds (T n) with Ok b => [b] | _ => [] end end else [].
Lemma bounds_list cd upd hw T : forall l' ds, Forall2 (fun n d => brings cd upd hw (T n) n d) l' ds -> bounds_of ds = flat_map (bounds_in upd T) l'.
Proof.
  intros l' ds F. induction F as [|n d l' ds B F IH]; [reflexivity|]. unfold bounds_of, stored_ones in *. cbn [filter flat_map]. destruct B as (_ & C & _ & BD). unfold bounds_in at 1.
  assert (Z0 : (0 <? dn_count d) = match c_pts (snd (T n)) with [] => false | _ => true end) by (rewrite C; destruct (c_pts (snd (T n))); reflexivity). rewrite Z0 in *.
  destruct (c_pts (snd (T n))); [destruct upd; exact IH|]. cbn [flat_map]. rewrite IH. f_equal. destruct upd; cbn [andb] in BD; [destruct BD as (b & -> & ->); reflexivity|now rewrite BD].
Qed.
Lemma bounds_perm cd upd hw T l' ds m' es : Permutation l' m' -> Forall2 (fun n d => brings cd upd hw (T n) n d) l' ds -> Forall2 (fun n d => brings cd upd hw (T n) n d) m' es -> Permutation (bounds_of ds) (bounds_of es).
Proof. intros P F G. rewrite (bounds_list _ _ _ _ _ _ F), (bounds_list _ _ _ _ _ _ G). now apply Permutation_flat_map. Qed.
Lemma existsb_perm {A} (g : A -> bool) l m : Permutation l m -> existsb g l = existsb g m.
Proof. intros P. induction P as [|x l m P IH|x y l|l m k P1 I1 P2 I2]; cbn [existsb]; [reflexivity|now rewrite IH|destruct (g x), (g y); reflexivity|congruence]. Qed.
Lemma np_min_same l m a b : Permutation l m -> np_min l a -> np_min m b -> same_number a b.
Proof.
  intros P A B. unfold np_min in *. rewrite (existsb_perm _ _ _ P) in A. destruct (existsb fnan m); [left; auto|]. right. destruct A as (A1 & A2), B as (B1 & B2). rewrite Forall_forall in A2, B2.
  split; [apply A2; eapply Permutation_in; [apply Permutation_sym|]; eauto|apply B2; eapply Permutation_in; eauto].
Qed.
Lemma np_max_same l m a b : Permutation l m -> np_max l a -> np_max m b -> same_number a b.
Proof.
  intros P A B. unfold np_max in *. rewrite (existsb_perm _ _ _ P) in A. destruct (existsb fnan m); [left; auto|]. right. destruct A as (A1 & A2), B as (B1 & B2). rewrite Forall_forall in A2, B2.
  split; [apply B2; eapply Permutation_in; eauto|apply A2; eapply Permutation_in; [apply Permutation_sym|]; eauto].
Qed.
Lemma same_vec_refl v : fnan (vx v) = false -> fnan (vy v) = false -> fnan (vz v) = false -> same_vec v v.
Proof. intros A B C. split; [|split]; right; split; now apply fle_refl. Qed.
Lemma global_same l m mn mx mn' mx' : Permutation l m -> global_bounds l mn mx -> global_bounds m mn' mx' -> same_vec mn mn' /\ same_vec mx mx'.
Proof.
  intros P A B. destruct l as [|x l].
  - apply Permutation_nil in P. subst m. destruct A as (-> & ->), B as (-> & ->). split; apply same_vec_refl; reflexivity.
  - destruct m as [|y m]; [apply Permutation_sym, Permutation_nil in P; discriminate|]. destruct A as (A1 & A2 & A3 & A4 & A5 & A6), B as (B1 & B2 & B3 & B4 & B5 & B6).
    pose proof (Permutation_map fst P) as PA. pose proof (Permutation_map snd P) as PB. unfold same_vec.
    pose proof (fun g => np_min_same _ _ (g mn) (g mn') (Permutation_map g PA)) as Q1. pose proof (fun g => np_max_same _ _ (g mx) (g mx') (Permutation_map g PB)) as Q2. auto 10.
Qed.
(* least and greatest *)
Lemma py_min_least l : l <> [] -> Forall (fun v => fnan v = false) l -> exists m, py_min l = Ok m /\ least l m.
Proof.
  destruct l as [|a l]; [contradiction|]. intros _ F. cbn [py_min]. eexists. split; [reflexivity|]. pose proof (Forall_inv F) as FA. apply Forall_inv_tail in F.
  assert (G : forall l m, fnan m = false -> Forall (fun v => fnan v = false) l -> let x := fold_left (fun m v => if flt v m then v else m) l m in (x = m \/ In x l) /\ fle x m = true /\ forall v, In v l -> fle x v = true).
  { clear. induction l as [|b l IH]; intros m M F; [cbn; split; [auto|split; [now apply fle_refl|intros v []]]|]. pose proof (Forall_inv F) as FB. apply Forall_inv_tail in F. cbn [fold_left]. cbv zeta. destruct (flt b m) eqn:C.
    - destruct (IH b FB F) as (A & B & D). split; [right; destruct A as [A|A]; [left; now symmetry|right; exact A]|]. split; [eapply fle_trans; [exact B|now apply fle_of_lt]|]. intros v [<-|V]; auto.
    - destruct (IH m M F) as (A & B & D). split; [destruct A as [A|A]; [left; exact A|right; right; exact A]|]. split; [exact B|]. intros v [<-|V]; auto. eapply fle_trans; [exact B|]. now apply fle_of_not_lt. }
  destruct (G l a FA F) as (A & B & D). split; [destruct A as [->|A]; [now left|now right]|]. intros v [<-|V]; auto.
Qed.
Lemma py_max_greatest l : l <> [] -> Forall (fun v => fnan v = false) l -> exists m, py_max l = Ok m /\ greatest l m.
Proof.
  destruct l as [|a l]; [contradiction|]. intros _ F. cbn [py_max]. eexists. split; [reflexivity|]. pose proof (Forall_inv F) as FA. apply Forall_inv_tail in F.
  assert (G : forall l m, fnan m = false -> Forall (fun v => fnan v = false) l -> let x := fold_left (fun m v => if fgt v m then v else m) l m in (x = m \/ In x l) /\ fle m x = true /\ forall v, In v l -> fle v x = true).
  { clear. induction l as [|b l IH]; intros m M F; [cbn; split; [auto|split; [now apply fle_refl|intros v []]]|]. pose proof (Forall_inv F) as FB. apply Forall_inv_tail in F. cbn [fold_left]. cbv zeta. destruct (fgt b m) eqn:C; unfold fgt in C.
    - destruct (IH b FB F) as (A & B & D). split; [right; destruct A as [A|A]; [left; now symmetry|right; exact A]|]. split; [eapply fle_trans; [now apply fle_of_lt; exact C|exact B]|]. intros v [<-|V]; auto.
    - destruct (IH m M F) as (A & B & D). split; [destruct A as [A|A]; [left; exact A|right; right; exact A]|]. split; [exact B|]. intros v [<-|V]; auto. eapply fle_trans; [|exact B]. now apply fle_of_not_lt. }
  destruct (G l a FA F) as (A & B & D). split; [destruct A as [->|A]; [now left|now right]|]. intros v [<-|V]; auto.
Qed.
Lemma get_column d y ps : points_in y ps -> array_get_f d (fst y) (snd y) = Ok (map (fdim_get d) ps).
Proof.
  unfold points_in, array_get_f. generalize (c_pts (snd y)). intros a. revert ps. induction a as [|x a IH]; intros ps H; cbn [mapM] in *; [injection H as <-; reflexivity|].
  apply bind_ok in H as (q & Q & H). apply bind_ok in H as (qs & QS & H). injection H as <-. rewrite Q. cbn [bind]. rewrite (IH _ QS). reflexivity.
Qed.
Lemma node_bounding y ps : points_in y ps -> ps <> [] -> no_nan ps -> exists mn mx, node_bounds y = Ok (mn, mx) /\ bounding ps mn mx.
Proof.
  intros P NE NN. assert (C : forall g : point -> f64, Forall (fun p => fnan (g p) = false) ps -> Forall (fun v => fnan v = false) (map g ps)) by (intros g F; clear - F; induction F; cbn [map]; constructor; auto).
  assert (NM : forall g : point -> f64, map g ps <> []) by (intros g; destruct ps; [contradiction|discriminate]).
  assert (FX : Forall (fun v => fnan v = false) (map p_x ps)) by (apply C; clear - NN; induction NN; constructor; tauto).
  assert (FY : Forall (fun v => fnan v = false) (map p_y ps)) by (apply C; clear - NN; induction NN; constructor; tauto).
  assert (FZ : Forall (fun v => fnan v = false) (map p_z ps)) by (apply C; clear - NN; induction NN; constructor; tauto).
  destruct (py_min_least _ (NM p_x) FX) as (a & EA & A), (py_min_least _ (NM p_y) FY) as (b & EB & B), (py_min_least _ (NM p_z) FZ) as (c & EC & CC),
    (py_max_greatest _ (NM p_x) FX) as (a' & EA' & A'), (py_max_greatest _ (NM p_y) FY) as (b' & EB' & B'), (py_max_greatest _ (NM p_z) FZ) as (c' & EC' & CC').
  exists (mkVec a b c), (mkVec a' b' c'). split; [|unfold bounding; cbn [vx vy vz]; auto 10].
  unfold node_bounds. rewrite (get_column ModelPoints.DX y ps P), (get_column ModelPoints.DY y ps P), (get_column ModelPoints.DZ y ps P). cbn [bind].
  change (map (fdim_get ModelPoints.DX) ps) with (map p_x ps). change (map (fdim_get ModelPoints.DY) ps) with (map p_y ps). change (map (fdim_get ModelPoints.DZ) ps) with (map p_z ps).
  rewrite EA, EB, EC, EA', EB', EC'. reflexivity.
Qed.
Lemma comb_min (g : point -> f64) (u : vec3 * vec3 -> f64) m : forall B qs, Forall2 (fun b ps => least (map g ps) (u b)) B qs -> B <> [] -> np_min (map u B) m -> least (map g (concat qs)) m.
Proof.
  intros B qs F NE H. assert (NN : existsb fnan (map u B) = false).
  { clear - F. induction F as [|b ps B qs (L1 & L2) F IH]; [reflexivity|]. cbn [map existsb]. rewrite IH, orb_false_r. specialize (L2 _ L1). now apply fle_not_nan in L2 as (? & _). }
  unfold np_min in H. rewrite NN in H. destruct H as (I & A). rewrite Forall_forall in A. split.
  - clear - F I. induction F as [|b ps B qs (L1 & L2) F IH]; [destruct I|]. cbn [map concat] in *. rewrite map_app. apply in_or_app. destruct I as [<-|I]; [now left|right; auto].
  - intros v V. clear - F V A. induction F as [|b ps B qs (L1 & L2) F IH]; [destruct V|]. cbn [concat] in V. rewrite map_app in V. apply in_app_or in V as [V|V].
    + eapply fle_trans; [apply A; now left|now apply L2].
    + apply IH; [|exact V]. intros x X. apply A. now right.
Qed.
Lemma comb_max (g : point -> f64) (u : vec3 * vec3 -> f64) m : forall B qs, Forall2 (fun b ps => greatest (map g ps) (u b)) B qs -> B <> [] -> np_max (map u B) m -> greatest (map g (concat qs)) m.
Proof.
  intros B qs F NE H. assert (NN : existsb fnan (map u B) = false).
  { clear - F. induction F as [|b ps B qs (L1 & L2) F IH]; [reflexivity|]. cbn [map existsb]. rewrite IH, orb_false_r. specialize (L2 _ L1). now apply fle_not_nan in L2 as (? & _). }
  unfold np_max in H. rewrite NN in H. destruct H as (I & A). rewrite Forall_forall in A. split.
  - clear - F I. induction F as [|b ps B qs (L1 & L2) F IH]; [destruct I|]. cbn [map concat] in *. rewrite map_app. apply in_or_app. destruct I as [<-|I]; [now left|right; auto].
  - intros v V. clear - F V A. induction F as [|b ps B qs (L1 & L2) F IH]; [destruct V|]. cbn [concat] in V. rewrite map_app in V. apply in_app_or in V as [V|V].
    + eapply fle_trans; [now apply L2|apply A; now left].
    + apply IH; [|exact V]. intros x X. apply A. now right.
Qed.
Lemma Forall2_weaken {A B} (R S : A -> B -> Prop) : (forall a b, R a b -> S a b) -> forall l m, Forall2 R l m -> Forall2 S l m.
Proof. intros I l m F. induction F; constructor; auto. Qed.
Lemma points_in_length y ps : points_in y ps -> length ps = length (c_pts (snd y)).
Proof. apply mapM_ok_length. Qed.
Lemma bounds_boxes T : forall l pss, Forall2 (fun n => points_in (T n)) l pss -> no_nan (concat pss) ->
  exists qs, concat qs = concat pss /\ Forall2 (fun b ps => bounding ps (fst b) (snd b)) (flat_map (bounds_in true T) l) qs /\ Forall (fun ps => ps <> []) qs.
Proof.
  intros l pss F. induction F as [|n ps l pss P F IH]; intros NN; [exists []; cbn; auto|]. cbn [concat] in NN. unfold no_nan in NN. apply Forall_app in NN as (N1 & N2). destruct (IH N2) as (qs & C & G & NE). cbn [flat_map concat]. unfold bounds_in at 1.
  pose proof (points_in_length _ _ P) as LP. assert (D : ps = [] \/ ps <> []) by (destruct ps; [now left|right; discriminate]). destruct D as [D|D].
  - subst ps. destruct (c_pts (snd (T n))); [|discriminate]. exists qs. auto.
  - destruct (c_pts (snd (T n))) as [|a rest]; [destruct ps; [contradiction|discriminate]|]. destruct (node_bounding (T n) ps P D N1) as (mn & mx & E & B).
    rewrite E. cbn [app]. exists (ps :: qs). cbn [concat]. rewrite C. split; [reflexivity|]. split; constructor; auto.
Qed.
Lemma global_bounding T l pss mn mx : Forall2 (fun n => points_in (T n)) l pss -> no_nan (concat pss) -> concat pss <> [] -> global_bounds (flat_map (bounds_in true T) l) mn mx -> bounding (concat pss) mn mx.
Proof.
  intros F NN NE G. destruct (bounds_boxes T l pss F NN) as (qs & C & B & _). rewrite <- C in *. set (bl := flat_map (bounds_in true T) l) in *. clearbody bl.
  assert (BN : bl <> []). { intros ->. inversion B; subst. now apply NE. }
  assert (GB : let lo := map fst bl in let hi := map snd bl in np_min (map vx lo) (vx mn) /\ np_min (map vy lo) (vy mn) /\ np_min (map vz lo) (vz mn) /\ np_max (map vx hi) (vx mx) /\ np_max (map vy hi) (vy mx) /\ np_max (map vz hi) (vz mx)) by (destruct bl; [contradiction|exact G]).
  cbv zeta in GB. rewrite !map_map in GB. destruct GB as (G1 & G2 & G3 & G4 & G5 & G6).
  split; [|split; [|split; [|split; [|split]]]]; [eapply comb_min|eapply comb_min|eapply comb_min|eapply comb_max|eapply comb_max|eapply comb_max]; [|exact BN|eassumption|..|exact BN|eassumption]; try exact BN; try eassumption;
    (eapply Forall2_weaken; [|exact B]; intros b ps Q; apply Q).
Qed.
Lemma no_points_bounds T : forall l pss, Forall2 (fun n => points_in (T n)) l pss -> concat pss = [] -> flat_map (bounds_in true T) l = [].
Proof.
  intros l pss F. induction F as [|n ps l pss P F IH]; intros E; [reflexivity|]. cbn [concat] in E. apply app_eq_nil in E as (-> & E). cbn [flat_map]. rewrite (IH E), app_nil_r. unfold bounds_in. apply points_in_length in P. destruct (c_pts (snd (T n))); [reflexivity|discriminate].
Qed.
Lemma bounding_same ps qs mn mx : Permutation ps qs -> bounding ps mn mx -> bounding qs mn mx.
Proof.
  intros P (A & B & C & D & E & F). assert (L : forall g m, least (map g ps) m -> least (map g qs) m) by (intros g m (X & Y); split; [eapply Permutation_in; [apply Permutation_map; exact P|exact X]|intros v V; apply Y; eapply Permutation_in; [apply Permutation_map, Permutation_sym; exact P|exact V]]).
  assert (M : forall g m, greatest (map g ps) m -> greatest (map g qs) m) by (intros g m (X & Y); split; [eapply Permutation_in; [apply Permutation_map; exact P|exact X]|intros v V; apply Y; eapply Permutation_in; [apply Permutation_map, Permutation_sym; exact P|exact V]]).
  unfold bounding. auto 10.
Qed.
