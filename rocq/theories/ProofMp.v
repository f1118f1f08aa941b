(* ProofMp.v - the process pool under every schedule *)
From Coq Require Import Permutation.
From Verif Require Import Base BaseFacts ModelFloat ModelKey ModelGeom ModelEntry ModelPoint ModelPoints ModelHeader ModelVlr ModelExtents ModelConfig
  ModelStream ModelWriter ModelReader ModelPickle ModelMp SpecKey SpecPoint SpecWriter SpecHier SpecReader SpecData SpecMp
  ProofKey ProofPickle ProofData ProofReader4 ProofReader6.
Open Scope Z_scope.

(* ---- chunks ---- *)
Fixpoint cut {A} (fuel : nat) (n : nat) (l : list A) : list (list A) :=
  match fuel with O => [] | S f => match l with [] => [] | _ => firstn n l :: cut f n (skipn n l) end end.
Lemma cut_spec {A} n : (0 < n)%nat -> forall fuel (l : list A), (length l <= fuel)%nat -> cut_into (Z.of_nat n) l (cut fuel n l).
Proof.
  intros N. induction fuel as [|fuel IH]; intros l L.
  - destruct l; [|cbn in L; lia]. split; [reflexivity|]. split; [constructor|]. intros [|] c cs2 E; discriminate.
  - cbn [cut]. destruct l as [|a l'] eqn:El; [split; [reflexivity|]; split; [constructor|]; intros [|] c cs2 E; discriminate|]. rewrite <- El in *.
    assert (LL : (0 < length l)%nat) by (rewrite El; cbn; lia). destruct (IH (skipn n l)) as (A1 & A2 & A3); [rewrite skipn_length; lia|].
    split; [cbn [concat]; rewrite A1; apply firstn_skipn|]. split; [constructor; [rewrite firstn_length; lia|exact A2]|].
    intros [|c0 cs1] c cs2 E NE; cbn [app] in E; injection E as E1 E2.
    + subst c. rewrite firstn_length. assert (skipn n l <> []) as S0. { intros Q. rewrite Q in E2. destruct fuel; cbn in E2; congruence. }
      assert (length (skipn n l) <> 0)%nat by (destruct (skipn n l); cbn; congruence). rewrite skipn_length in H. lia.
    + exact (A3 cs1 c cs2 E2 NE).
Qed.
Lemma slices_cut {A} n : (0 < n)%nat -> forall k fuel (l : list A), (length l <= fuel)%nat -> (k * n < length l + n)%nat -> (length l <= k * n)%nat ->
  map (fun i => firstn n (skipn (i * n) l)) (seq 0 k) = cut fuel n l.
Proof.
  intros N. induction k as [|k IH]; intros fuel l F B C.
  - cbn in C. destruct l; [|cbn in C; lia]. destruct fuel; reflexivity.
  - assert (LL : (0 < length l)%nat) by lia. destruct fuel as [|fuel]; [lia|]. cbn [seq map]. rewrite <- seq_shift, map_map.
    assert (cut (S fuel) n l = firstn n l :: cut fuel n (skipn n l)) as -> by (destruct l; [cbn in LL; lia|reflexivity]).
    replace (0 * n)%nat with 0%nat by lia. rewrite skipn_O. f_equal. rewrite <- (IH fuel (skipn n l)); try (rewrite skipn_length; lia).
    apply map_ext. intros i. f_equal. rewrite ProofStream.skipn_add. f_equal; lia.
Qed.
Lemma py_chunks_pos {A} n (l : list A) : 0 < n -> exists cs, py_chunks n l = Ok cs /\ cut_into n l cs.
Proof.
  intros N. unfold py_chunks. destruct (Z.eqb_spec n 0); [lia|]. eexists. split; [reflexivity|]. unfold py_range. destruct (Z.leb_spec n 0); [lia|]. rewrite map_map.
  set (k := Z.to_nat ((Z.of_nat (length l) + n - 1) / n)). set (m := Z.to_nat n).
  assert (E : map (fun x => py_slice (Z.of_nat x * n) n l) (seq 0 k) = cut (length l) m l).
  { pose proof (Z.div_mod (Z.of_nat (length l) + n - 1) n ltac:(lia)) as D. pose proof (Z.mod_pos_bound (Z.of_nat (length l) + n - 1) n ltac:(lia)) as B.
    assert (Q : 0 <= (Z.of_nat (length l) + n - 1) / n) by (apply Z.div_pos; lia). set (q := (Z.of_nat (length l) + n - 1) / n) in *.
    assert (KM : Z.of_nat (k * m) = q * n) by (rewrite Nat2Z.inj_mul; unfold k, m; rewrite !Z2Nat.id by lia; reflexivity).
    rewrite <- (slices_cut m ltac:(unfold m; lia) k (length l) l); [|try lia..].
    apply map_ext. intros i. unfold py_slice. fold m. f_equal. f_equal. unfold m. rewrite Z2Nat.inj_mul, Nat2Z.id by lia. reflexivity. }
  rewrite E. replace n with (Z.of_nat m) by (unfold m; lia). apply cut_spec; unfold m; lia.
Qed.

(* ---- running tasks ---- *)
Section Pool.
Context {B St : Type}.
Variables (task : node -> reader -> reader * outcome B) (step : B -> St -> St * outcome unit) (r0 : reader) (val : node -> outcome B) (ok : node -> Prop).
Hypothesis T : forall n, ok n -> task n r0 = (r0, val n).
Definition same_pool (p : pool) : Prop := forall i, p i = r0.
Lemma run_tasks_same ts : forall p, same_pool p -> Forall ok (map snd ts) -> exists p', run_tasks task ts p = (p', map val (map snd ts)) /\ same_pool p'.
Proof.
  induction ts as [|(i, n) ts IH]; intros p S F; [exists p; auto|]. cbn [map snd] in F. pose proof (Forall_inv F) as F1. apply Forall_inv_tail in F.
  cbn [run_tasks map snd]. rewrite (S i), (T n F1). destruct (IH (pool_set i r0 p)) as (p' & E & S'); [|exact F|].
  - intros j. unfold pool_set. destruct (Nat.eqb i j); auto.
  - rewrite E. exists p'. auto.
Qed.
Lemma chunk_done_same p c p' seen : same_pool p -> Forall ok c -> chunk_done task p c p' seen -> same_pool p' /\ Permutation (map val c) seen.
Proof.
  intros S F (ts & res & P1 & R & P2). destruct (run_tasks_same ts p S) as (q & E & S'). { eapply Permutation_Forall; [apply Permutation_sym; exact P1|exact F]. }
  rewrite E in R. injection R as <- <-. split; [exact S'|]. rewrite <- P2. apply Permutation_map. now apply Permutation_sym.
Qed.
Lemma each_app_ok : forall a b s s1, each step a s = (s1, Ok tt) -> each step (a ++ b) s = each step b s1.
Proof.
  induction a as [|x a IH]; intros b s s1 H; [injection H as <-; reflexivity|]. cbn [each app] in *. unfold then_ in *. destruct (step x s) as (s2, [[]| |]) eqn:E; try discriminate. now apply IH.
Qed.
(* the results up to the first one that is an exception or makes the handler throw *)
Definition handled (seen : list (outcome B)) (s s' : St) (o : outcome unit) : Prop := exists bs rest, seen = map Ok bs ++ rest /\
  ((each step bs s = (s', o) /\ (o = Ok tt -> rest = [])) \/ (each step bs s = (s', Ok tt) /\ exists x rest', rest = x :: rest' /\ ((x = Throw /\ o = Throw) \/ (x = UB /\ o = UB)))).
Lemma consume_spec : forall seen s s' o, consume step seen s = (s', o) -> handled seen s s' o.
Proof.
  induction seen as [|x seen IH]; intros s s' o H.
  - injection H as <- <-. exists [], []. auto.
  - destruct x as [b| |]; cbn [consume] in H.
    + destruct (step b s) as (s1, [[]| |]) eqn:E.
      * destruct (IH s1 s' o H) as (bs & rest & -> & A). exists (b :: bs), rest. split; [reflexivity|]. cbn [each]. unfold then_. rewrite E. exact A.
      * injection H as <- <-. exists [b], seen. split; [reflexivity|]. left. cbn [each]. unfold then_. rewrite E. split; [reflexivity|discriminate].
      * injection H as <- <-. exists [b], seen. split; [reflexivity|]. left. cbn [each]. unfold then_. rewrite E. split; [reflexivity|discriminate].
    + injection H as <- <-. exists [], (Throw :: seen). split; [reflexivity|]. right. split; [reflexivity|]. exists Throw, seen. auto.
    + injection H as <- <-. exists [], (UB :: seen). split; [reflexivity|]. right. split; [reflexivity|]. exists UB, seen. auto.
Qed.
Lemma handled_ok seen s s' : handled seen s s' (Ok tt) -> exists bs, seen = map Ok bs /\ each step bs s = (s', Ok tt).
Proof.
  intros (bs & rest & E & [(A & C)|(_ & x & rest' & _ & [(_ & C)|(_ & C)])]); try discriminate. rewrite C, app_nil_r in E by reflexivity. eauto.
Qed.
Lemma mp_run_spec cs p s s' o : mp_run task step cs p s s' o -> same_pool p -> Forall ok (concat cs) ->
  (exists seen, Permutation (map val (concat cs)) seen /\ handled seen s s' o) /\
  (o = Ok tt -> exists segs, Forall2 (fun c seg => Permutation (map val c) (map Ok seg)) cs segs /\ each step (concat segs) s = (s', Ok tt)).
Proof.
  intros H. induction H as [p s|c cs p p' seen s s1 s2 o CD CO R IH|c cs p p' seen s s1 o CD CO N]; intros S F.
  - split; [exists []; split; [constructor|exists [], []; auto]|]. intros _. exists []. split; [constructor|reflexivity].
  - cbn [concat] in F. apply Forall_app in F as (F1 & F2). destruct (chunk_done_same _ _ _ _ S F1 CD) as (S' & P). apply consume_spec, handled_ok in CO as (bs & -> & E).
    destruct (IH S' F2) as ((seen' & P' & bs' & rest & Q & A) & SG). split.
    + exists (map Ok bs ++ seen'). split; [cbn [concat]; rewrite map_app; now apply Permutation_app|]. exists (bs ++ bs'), rest. split; [rewrite map_app, <- app_assoc; now f_equal|]. rewrite (each_app_ok _ _ _ _ E). exact A.
    + intros O. destruct (SG O) as (segs & G1 & G2). exists (bs :: segs). split; [now constructor|]. cbn [concat]. now rewrite (each_app_ok _ _ _ _ E).
  - cbn [concat] in F. apply Forall_app in F as (F1 & F2). destruct (chunk_done_same _ _ _ _ S F1 CD) as (S' & P). apply consume_spec in CO. split; [|intros O; contradiction].
    destruct CO as (bs & rest & -> & A). exists ((map Ok bs ++ rest) ++ map val (concat cs)). split; [cbn [concat]; rewrite map_app; now apply Permutation_app|].
    exists bs, (rest ++ map val (concat cs)). split; [now rewrite app_assoc|]. destruct A as [(A & C)|(A & x & rest' & -> & C)]; [left; split; [exact A|intros O; contradiction]|right]. split; [exact A|]. exists x, (rest' ++ map val (concat cs)). auto.
Qed.
(* every order of the results of each chunk is possible *)
Lemma chunk_possible p c seen : same_pool p -> Forall ok c -> Permutation (map val c) seen -> exists p', chunk_done task p c p' seen /\ same_pool p'.
Proof.
  intros S F P. assert (M : map snd (map (fun n => (0%nat, n)) c) = c) by (rewrite map_map; apply map_id).
  destruct (run_tasks_same (map (fun n => (0%nat, n)) c) p S) as (p' & E & S'); [rewrite M; exact F|]. rewrite M in E.
  exists p'. split; [|exact S']. exists (map (fun n => (0%nat, n)) c), (map val c). split; [rewrite M; reflexivity|]. auto.
Qed.
Lemma mp_run_possible : forall cs segs p s s', same_pool p -> Forall ok (concat cs) -> Forall2 (fun c seg => Permutation (map val c) (map Ok seg)) cs segs -> each step (concat segs) s = (s', Ok tt) ->
  mp_run task step cs p s s' (Ok tt).
Proof.
  induction cs as [|c cs IH]; intros segs p s s' S F F2 E; inversion F2 as [|? seg ? segs' P F2']; subst; clear F2.
  - injection E as <-. constructor.
  - cbn [concat] in F, E. apply Forall_app in F as (F1 & F3). destruct (chunk_possible p c _ S F1 P) as (p' & CD & S').
    assert (X : exists s1, each step seg s = (s1, Ok tt)). { clear - E. revert s E. induction seg as [|b seg IH]; intros s E; [exists s; reflexivity|]. cbn [app each] in *. unfold then_ in *. destruct (step b s) as (s2, [[]| |]); try discriminate. now apply IH. }
    destruct X as (s1 & X). assert (C : consume step (map Ok seg) s = (s1, Ok tt)). { clear - X. revert s X. induction seg as [|b seg IH]; intros s X; [exact X|]. cbn [map consume each] in *. unfold then_ in X. destruct (step b s) as (s2, [[]| |]); try discriminate. now apply IH. }
    rewrite (each_app_ok _ _ _ _ X) in E. eapply run_next; eauto.
Qed.
End Pool.

(* ---- selecting nodes ---- *)
Lemma and_then_mono {A C} (x x' : call A) (g g' : A -> reader -> call C) y : (forall z, x = Some z -> x' = Some z) -> (forall a r z, g a r = Some z -> g' a r = Some z) -> and_then x g = Some y -> and_then x' g' = Some y.
Proof. intros H1 H2 E. unfold and_then in *. destruct x as [(r, [a| |])|] eqn:X; try discriminate; rewrite (H1 _ eq_refl); auto. Qed.
Lemma select_mono od nodes res r m m' x : (m <= m')%nat -> mp_select m od nodes res r = Some x -> mp_select m' od nodes res r = Some x.
Proof.
  intros L. unfold mp_select. destruct nodes as [l|]; [auto|]. assert (M : forall r z, get_all_nodes m od r = Some z -> get_all_nodes m' od r = Some z) by (intros; eapply children_mono; eauto).
  destruct (fgt res (f64_of_Z (-1))); [|auto]. unfold get_nodes_within_resolution, select_nodes, get_depth_at_resolution. apply and_then_mono.
  - intros z. apply and_then_mono; auto.
  - intros a q z. apply and_then_mono; auto.
Qed.
Lemma select_agree od nodes res r l fuel r' sel : selects od nodes res r l -> mp_select fuel od nodes res r = Some (r', sel) -> sel = Ok l.
Proof.
  intros (r1 & m & H) E. apply (select_mono _ _ _ _ _ (Nat.max m fuel)) in E; [|lia]. rewrite H in E by lia. congruence.
Qed.
