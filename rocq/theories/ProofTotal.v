(* ProofTotal.v - the point count of the header and of the nodes *)
From Coq Require Import Permutation.
From Verif Require Import Base BaseFacts ModelFloat ModelKey ModelGeom ModelEntry ModelPoint ModelPoints ModelHeader ModelVlr ModelExtents ModelConfig
  ModelStream ModelWriter ModelReader SpecKey SpecPoint SpecPoints SpecConfig SpecHeader SpecWriter SpecHier SpecFile SpecReader SpecData SpecRound SpecOrder SpecTotal
  ProofKey ProofStream ProofConfig ProofWriter ProofWriter2 ProofWriter4 ProofClose2 ProofSession ProofResults ProofReject ProofCount ProofRound ProofData ProofData2 ProofOrder.
Open Scope Z_scope.

Definition sum (l : list Z) : Z := fold_right Z.add 0 l.
Lemma sum_perm a b : Permutation a b -> sum a = sum b.
Proof. unfold sum. induction 1; cbn [fold_right]; lia. Qed.
Lemma sum_app a b : sum (a ++ b) = sum a + sum b.
Proof. unfold sum. induction a; cbn [fold_right app]; lia. Qed.
Lemma sum_pos l : Forall (fun x => 0 < x) l -> 0 <= sum l /\ (sum l = 0 -> l = []).
Proof. unfold sum. induction 1 as [|x l P F (A & B)]; cbn [fold_right]; [split; [lia|auto]|]. split; [lia|]. intros; exfalso; lia. Qed.
Lemma point_total_sum ns : point_total ns = sum (map (fun n => e_count (n_entry n)) ns).
Proof. unfold point_total, sum. induction ns; cbn [fold_right map]; congruence. Qed.
Lemma sub_list {A} : forall (a b : list A), NoDup a -> incl a b -> exists c, Permutation b (a ++ c).
Proof.
  induction a as [|x a IH]; intros b N I; [exists b; reflexivity|]. apply NoDup_cons_iff in N as (NI & N).
  assert (X : In x b) by (apply I; now left). apply in_split in X as (b1 & b2 & ->). destruct (IH (b1 ++ b2) N) as (c & P).
  - intros y Y. assert (In y (b1 ++ x :: b2)) as Q by (apply I; now right). apply in_app_or in Q. apply in_or_app. destruct Q as [Q|[->|Q]]; auto. contradiction.
  - exists c. rewrite <- Permutation_middle. cbn [app]. now apply perm_skip.
Qed.

(* ---- the view and the nodes that were added ---- *)
Lemma added_in l n : In n (added_nodes l) <-> exists op, In (op, Ok (Some n)) l.
Proof.
  unfold added_nodes. rewrite in_flat_map. split.
  - intros ((op, o) & I & J). cbn [snd] in J. destruct o as [[m|]| |]; try destruct J as [->|[]]; try destruct J. eauto.
  - intros (op & I). exists (op, Ok (Some n)). split; [exact I|now left].
Qed.
Lemma see_keeps v x k : v k <> None -> see v x k <> None.
Proof.
  intros V. assert (SV : forall k1 y, set_view k1 y v k <> None) by (intros k1 y; unfold set_view; destruct (key_eqb k1 k); [discriminate|exact V]).
  destruct x as (op, o). destruct op, o as [[n|]| |]; cbn [see]; auto; match goal with |- context [match v ?q with _ => _ end] => destruct (v q) as [(m, z)|]; auto end.
Qed.
Lemma view_keeps : forall l v k, v k <> None -> fold_left see l v k <> None.
Proof. induction l as [|x l IH]; intros v k V; [exact V|]. cbn [fold_left]. apply IH. now apply see_keeps. Qed.
Lemma view_has : forall l v op n k p, In (op, Ok (Some n)) l -> add_keys op = Some (k, p) -> fold_left see l v k <> None.
Proof.
  induction l as [|x l IH]; intros v op n k p I A; [destruct I|]. cbn [fold_left]. destruct I as [->|I]; [|eapply IH; eauto]. apply view_keeps.
  destruct op; cbn [add_keys] in A; try discriminate A; injection A as <- <-; cbn [see]; unfold set_view; rewrite key_eqb_refl; discriminate.
Qed.
Lemma view_from : forall l v k n p, fold_left see l v k = Some (n, p) -> (exists q, v k = Some (n, q)) \/ exists op q, In (op, Ok (Some n)) l /\ add_keys op = Some (k, q).
Proof.
  induction l as [|x l IH]; intros v k n p V; [left; eauto|]. cbn [fold_left] in V. apply IH in V as [(q & V)|(op & q & I & A)]; [|right; exists op, q; split; [now right|exact A]].
  destruct x as (op, o).
  assert (ADD : forall k1 m p1, see v (op, o) = set_view k1 (m, p1) v -> o = Ok (Some m) -> add_keys op = Some (k1, p1) -> (exists q0, v k = Some (n, q0)) \/ exists op0 q0, In (op0, Ok (Some n)) ((op, o) :: l) /\ add_keys op0 = Some (k, q0)).
  { intros k1 m p1 E O A. rewrite E in V. unfold set_view in V. destruct (key_eqb k1 k) eqn:Q; [|eauto]. apply key_eqb_eq in Q. subst k1. injection V as -> ->. right. exists op, q. split; [left; congruence|exact A]. }
  destruct op, o as [[m|]| |]; cbn [see] in V; try (left; eauto; fail); try (eapply ADD; reflexivity);
  try (left; destruct (v k0) as [(m0, q0)|] eqn:V0; [|eauto]; unfold set_view in V; destruct (key_eqb k0 k) eqn:Q; [|eauto]; apply key_eqb_eq in Q; subst k0; injection V as -> ->; eauto).
Qed.

Section T.
Context (cd : codec) (c0 : config) (ops : list wop) (l : log) (w : writer).
Hypothesis W : written cd c0 ops l w.

Lemma added_ok n : In n (added_nodes l) -> exists op x p, In (op, Ok (Some n)) l /\ add_keys op = Some (n_key n, p) /\ chunk_of cd (c_hdr c0) op = Some (x, e_count (n_entry n)) /\ 0 < e_count (n_entry n) < 2 ^ 31.
Proof.
  intros I. apply added_in in I as (op & I). pose proof W as ((od & c & v & S) & _ & PO & _). pose proof (op_positive _ _ _ _ _ _ _ _ _ _ S I PO) as PP.
  destruct (complete_closed _ _ _ _ _ _ _ _ S) as (w0 & w1 & cs & PG & ws & h & O & R & HS & C & RO & L & AD).
  destruct (hs_nodes _ _ _ _ _ _ HS _ _ I) as ((k' & p' & A & K' & P' & CO' & K32 & P32 & CR & C0 & CP) & _). destruct (chunk_kept _ _ _ _ _ _ _ _ _ _ S I) as (x & CK & AK & _).
  exists op, x, (n_page n). split; [exact I|]. split; [exact AK|]. split; [exact CK|]. split; [|lia].
  destruct op; try discriminate A; cbn [positive] in PP; lia.
Qed.
Lemma view_added_node k n p : view_of l k = Some (n, p) -> In n (added_nodes l) /\ n_key n = k.
Proof.
  intros V. unfold view_of in V. apply view_from in V as [(q & V)|(op & q & I & A)]; [discriminate V|]. pose proof W as ((od & c & v & S) & _). split; [apply added_in; eauto|].
  destruct (chunk_kept _ _ _ _ _ _ _ _ _ _ S I) as (x & _ & AK & _). unfold n_key. congruence.
Qed.
Lemma count_of_chunks : total_points (chunks_of cd (c_hdr c0) l) = point_total (added_nodes l).
Proof.
  assert (H : forall m, (forall n, In n (added_nodes m) -> In n (added_nodes l)) -> (forall x, In x m -> In x l) -> total_points (chunks_of cd (c_hdr c0) m) = point_total (added_nodes m)).
  { induction m as [|(op, o) m IH]; intros SUB IN; [reflexivity|]. pose proof W as ((od & c & v & S) & _).
    assert (IH' : total_points (chunks_of cd (c_hdr c0) m) = point_total (added_nodes m)). { apply IH; [intros n N; apply SUB; unfold added_nodes; cbn [flat_map]; apply in_or_app; now right|intros x X; apply IN; now right]. }
    destruct o as [[n|]| |]; [|exact IH'..]. unfold added_nodes, chunks_of. cbn [flat_map snd app]. fold (added_nodes m) (chunks_of cd (c_hdr c0) m).
    destruct (chunk_kept _ _ _ _ _ _ _ _ _ _ S (IN _ (or_introl eq_refl))) as (x & CK & _). rewrite CK. cbn [opt_list app]. unfold total_points, point_total in *. cbn [fold_right snd]. now rewrite IH'. }
  apply H; auto.
Qed.
Lemma added_length : (length (added_nodes l) <= length ops)%nat.
Proof.
  pose proof W as ((od & c & v & S) & _). rewrite <- (session_ops _ _ _ _ _ _ _ _ S), map_length. unfold added_nodes. clear. induction l as [|(op, o) m IH]; [cbn; lia|]. cbn [flat_map]. rewrite app_length. cbn [length snd]. destruct o as [[n|]| |]; cbn [length]; lia.
Qed.
Lemma count_small : Z.of_nat (length ops) < 2 ^ 32 - 2 -> 0 <= point_total (added_nodes l) < 2 ^ 64.
Proof.
  intros N. pose proof added_length as AL. assert (F : forall n, In n (added_nodes l) -> 0 < e_count (n_entry n) < 2 ^ 31) by (intros n I; now destruct (added_ok n I) as (_ & _ & _ & _ & _ & _ & ?)).
  assert (B : 0 <= point_total (added_nodes l) <= Z.of_nat (length (added_nodes l)) * 2 ^ 31).
  { clear - F. revert F. generalize (added_nodes l). unfold point_total. induction l0 as [|n m IH]; intros F; [cbn; lia|]. cbn [fold_right length]. specialize (IH ltac:(intros x X; apply F; now right)). pose proof (F n (or_introl eq_refl)). lia. }
  change (2 ^ 31) with 2147483648 in B. change (2 ^ 32) with 4294967296 in N. change (2 ^ 64) with 18446744073709551616. lia.
Qed.
(* the nodes a reader lists *)
Lemma listed_total ns : NoDup (map n_key ns) -> (forall n, In n ns <-> exists m p, view_of l (n_key n) = Some (m, p) /\ n = mkNode (n_entry m) p) ->
  point_total ns <= point_total (added_nodes l) /\ (point_total ns = point_total (added_nodes l) <-> added_once l).
Proof.
  intros ND X. set (A := map n_entry ns). set (B := map n_entry (added_nodes l)).
  assert (INC : incl A B). { intros e E. apply in_map_iff in E as (n & <- & I). apply X in I as (m & p & V & E). apply view_added_node in V as (V & _). rewrite E. cbn [n_entry]. now apply in_map. }
  assert (NA : NoDup (map e_key A)) by (unfold A; rewrite map_map; exact ND). destruct (sub_list A B (NoDup_map_inv _ _ NA) INC) as (c & P).
  assert (PT : forall z, point_total z = sum (map e_count (map n_entry z))) by (intros z; rewrite point_total_sum, map_map; reflexivity). rewrite !PT. fold A B.
  rewrite (sum_perm (map e_count B) (map e_count (A ++ c))) by now apply Permutation_map. rewrite map_app, sum_app.
  assert (PC : Forall (fun x => 0 < x) (map e_count c)). { apply Forall_forall. intros x I. apply in_map_iff in I as (e & <- & I). assert (J : In e B) by (eapply Permutation_in; [apply Permutation_sym; exact P|apply in_or_app; now right]). apply in_map_iff in J as (n & <- & J). destruct (added_ok n J) as (_ & _ & _ & _ & _ & _ & Q). lia. }
  destruct (sum_pos _ PC) as (S1 & S2). split; [lia|]. unfold added_once.
  assert (KB : map n_key (added_nodes l) = map e_key B) by (unfold B; rewrite map_map; reflexivity). rewrite KB. split.
  - intros E. assert (C : c = []) by (assert (Q : map e_count c = []) by (apply S2; lia); destruct c; [reflexivity|discriminate Q]). subst c. rewrite app_nil_r in P. eapply Permutation_NoDup; [|exact NA]. apply Permutation_map. now apply Permutation_sym.
  - intros NB. destruct c as [|e c]; [cbn; lia|]. exfalso.
    assert (J : In e B) by (eapply Permutation_in; [apply Permutation_sym; exact P|apply in_or_app; right; now left]). pose proof J as JB. apply in_map_iff in J as (n & EN & J). destruct (added_ok n J) as (op & x & p & I & AK & _).
    assert (V : view_of l (n_key n) <> None) by (eapply view_has; eauto). destruct (view_of l (n_key n)) as [(m, q)|] eqn:VV; [|congruence]. destruct (view_added_node _ _ _ VV) as (M & MK).
    assert (IA : In (n_entry m) A). { apply in_map_iff. exists (mkNode (n_entry m) q). split; [reflexivity|]. apply X. exists m, q. split; [|reflexivity]. unfold n_key in *. cbn [n_entry]. now rewrite MK. }
    assert (NP : NoDup (map e_key (A ++ e :: c))) by (eapply Permutation_NoDup; [apply Permutation_map; exact P|exact NB]).
    rewrite map_app in NP. cbn [map] in NP. apply NoDup_remove in NP as (_ & NP). apply NP, in_or_app. left. rewrite <- EN. change (e_key (n_entry n)) with (n_key n). rewrite <- MK. change (n_key m) with (e_key (n_entry m)). now apply in_map.
Qed.
Lemma header_total r : storable (w_cfg w) -> Z.of_nat (length ops) < 2 ^ 32 - 2 -> chunks_fit cd (c_hdr c0) ops -> reader_on (file w) r -> h_pcount (c_hdr (r_cfg r)) = point_total (added_nodes l).
Proof.
  intros SB N CF R. destruct (used_config _ _ _ _ _ _ W SB N R) as (_ & (D & _) & _). rewrite D. pose proof W as ((od & c & v & S) & _). destruct (tiling _ _ _ _ _ _ _ _ S CF) as (_ & _ & _ & _ & _ & E). rewrite E, count_of_chunks, Z.mod_small; [reflexivity|now apply count_small].
Qed.
End T.
Lemma choose {A B} (dec : forall x y : A, {x = y} + {x <> y}) (Q : A -> B -> Prop) (b0 : B) : forall l, (forall x, In x l -> exists y, Q x y) -> exists f, forall x, In x l -> Q x (f x).
Proof.
  induction l as [|a l IH]; intros H; [exists (fun _ => b0); intros x []|]. destruct (IH ltac:(intros x X; apply H; now right)) as (f & F). destruct (H a (or_introl eq_refl)) as (y & Y).
  exists (fun x => if dec x a then y else f x). intros x [<-|X]; [destruct (dec a a); [exact Y|congruence]|]. destruct (dec x a) as [->|]; [exact Y|]. now apply F.
Qed.
Lemma adds_nodup : forall m : log, (forall op n, In (op, Ok (Some n)) m -> exists p, add_keys op = Some (n_key n, p)) -> NoDup (map fst (SpecOrder.adds (map fst m))) ->
  NoDup (map n_key (added_nodes m)) /\ incl (map n_key (added_nodes m)) (map fst (SpecOrder.adds (map fst m))).
Proof.
  induction m as [|(op, o) m IH]; intros IN NM; [split; [constructor|intros x []]|]. cbn [map fst] in NM. unfold SpecOrder.adds in NM. cbn [flat_map] in NM. fold (SpecOrder.adds (map fst m)) in NM. rewrite map_app in NM.
  assert (NM' : NoDup (map fst (SpecOrder.adds (map fst m)))) by (clear - NM; induction (map fst (opt_list (add_keys op))) as [|a q IHq]; [exact NM|]; apply IHq; cbn [app] in NM; now apply NoDup_cons_iff in NM).
  destruct IH as (A & B); [intros op' n I; apply (IN op' n); now right|exact NM'|]. cbn [map fst]. unfold SpecOrder.adds. cbn [flat_map]. fold (SpecOrder.adds (map fst m)). rewrite map_app.
  destruct o as [[n|]| |]; [|split; [exact A|intros x X; apply in_or_app; right; now apply B]..].
  unfold added_nodes. cbn [flat_map snd app map]. fold (added_nodes m). destruct (IN op n (or_introl eq_refl)) as (p & K). rewrite K in *. cbn [opt_list map fst app] in *. apply NoDup_cons_iff in NM as (NI & _). split.
  - constructor; [|exact A]. intros J. apply NI. now apply B.
  - intros x [<-|X]; [now left|right; now apply B].
Qed.
Lemma once_added cd c0 ops l w : written cd c0 ops l w -> once_each ops -> added_once l.
Proof.
  intros W (_ & ND). pose proof W as ((od & c & v & S) & _). rewrite <- (session_ops _ _ _ _ _ _ _ _ S) in ND. apply adds_nodup; [|exact ND]. intros op n I.
  destruct (chunk_kept _ _ _ _ _ _ _ _ _ _ S I) as (x & _ & AK & _). unfold n_key. eauto.
Qed.
