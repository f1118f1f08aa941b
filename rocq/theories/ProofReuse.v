(* ProofReuse.v - a writer on a stream with old contents, standing at its beginning, does what it does on an empty stream *)
From Verif Require Import Base BaseFacts ModelFloat ModelKey ModelGeom ModelEntry ModelPoint ModelPoints ModelHeader ModelVlr ModelExtents ModelConfig
  ModelStream ModelWriter ModelReuse SpecKey SpecConfig SpecHeader SpecWriter SpecLaz ProofKey ProofStream ProofWriter ProofWriter2 ProofLaz.
Open Scope Z_scope.

(* a stream with the old contents d behind what has been written *)
Definition over (d : bytes) (s : ostream) : ostream := mkOut (o_data s ++ skipn (length (o_data s)) d) (o_pos s) false None.
Definition bover (d : bytes) (b : bwriter) : bwriter := with_out (over d (b_out b)) b.
Definition wover (d : bytes) (w : writer) : writer := with_base (bover d (w_base w)) w.
Definition lover (d : bytes) (w : laz_writer) : laz_writer := mkLW (bover d (lw_base w)) (lw_cfg w).
Definition base_at_end (b : bwriter) : Prop := at_end (b_out b).

Lemma over_put d x s : at_end s -> put x (over d s) = over d (put x s).
Proof.
  intros E. rewrite (put_end _ _ E). destruct E as (B & C & P). unfold over, put. cbn [o_bad o_cap o_data o_pos]. rewrite Nat.ltb_irrefl, P. f_equal; [|now rewrite app_length].
  unfold splice. rewrite firstn_app, Nat.sub_diag, firstn_all, firstn_O, app_nil_r, app_length. rewrite <- app_assoc. do 2 f_equal.
  rewrite skipn_app, skipn_all2 by lia. cbn [app]. rewrite skipn_add. f_equal. lia.
Qed.
Lemma over_tell d s : at_end s -> tell64 (over d s) = tell64 s.
Proof. intros (B & _ & _). unfold tell64. cbn [over o_bad o_pos]. now rewrite B. Qed.
Lemma over_short d s : at_end s -> (length d <= length (o_data s))%nat -> over d s = s.
Proof. intros (B & C & P) L. unfold over. rewrite skipn_all2, app_nil_r by exact L. destruct s as [d0 p0 b0 c0]; cbn [o_data o_pos o_bad o_cap] in *. congruence. Qed.
Lemma over_empty d : over d (empty_out None) = holding d 0.
Proof. reflexivity. Qed.
Lemma bover_short d b : at_end (b_out b) -> (length d <= length (o_data (b_out b)))%nat -> bover d b = b.
Proof. intros E L. unfold bover, with_out. rewrite over_short by assumption. now destruct b. Qed.
Lemma wover_short d w : at_end (b_out (w_base w)) -> (length d <= length (file w))%nat -> wover d w = w.
Proof. intros E L. unfold wover, with_base. rewrite bover_short by assumption. now destruct w. Qed.
Lemma lover_short d w : at_end (b_out (lw_base w)) -> (length d <= length (laz_file w))%nat -> lover d w = w.
Proof. intros E L. unfold lover. rewrite bover_short by assumption. now destruct w. Qed.

Lemma chunk_over cd h data n c d b b' r : at_end (b_out b) -> write_chunk cd h data n c b = (b', r) -> write_chunk cd h data n c (bover d b) = (bover d b', r).
Proof.
  intros E H. unfold write_chunk in *. cbn [bover with_out b_out b_open b_chunks b_points b_evoff b_evcnt] in *. rewrite (over_tell d) by exact E.
  destruct (tell64 (b_out b) <=? 0); [injection H as <- <-; reflexivity|].
  destruct (if c then Ok (data, n) else _) as [(x, m)| |]; [|injection H as <- <-; reflexivity..].
  rewrite (over_put d) by exact E. rewrite (over_tell d) by (apply put_at_end; exact E).
  destruct (tell64 (put x (b_out b)) <=? 0); [injection H as <- <-; reflexivity|].
  destruct (INT32_MAX <? to_u 64 (tell64 (put x (b_out b)) - tell64 (b_out b))); injection H as <- <-; reflexivity.
Qed.
Lemma do_add_over cd k data n c p d w w' r : at_end (b_out (w_base w)) -> do_add_node cd k data n c p w = (w', r) -> do_add_node cd k data n c p (wover d w) = (wover d w', r).
Proof.
  intros E H. unfold do_add_node in *. cbn [wover with_base w_base w_cfg w_loaded w_pages] in *.
  destruct (negb (key_valid p) || negb (key_valid k)); [injection H as <- <-; reflexivity|]. destruct (negb (child_of k p)); [injection H as <- <-; reflexivity|].
  destruct (write_chunk cd (c_hdr (w_cfg w)) data n c (w_base w)) as (b, o) eqn:C. rewrite (chunk_over _ _ _ _ _ d _ _ _ E C).
  destruct o as [((o, s), m)| |]; injection H as <- <-; reflexivity.
Qed.
Lemma add_over cd k data p d w w' r : at_end (b_out (w_base w)) -> add_node cd k data p w = (w', r) -> add_node cd k data p (wover d w) = (wover d w', r).
Proof.
  intros E H. unfold add_node in *. cbn [wover with_base w_cfg] in *. destruct data as [|x data]; [injection H as <- <-; reflexivity|].
  destruct (h_reclen (c_hdr (w_cfg w)) =? 0); [injection H as <- <-; reflexivity|]. destruct (negb (_ =? 0)); [injection H as <- <-; reflexivity|]. now apply do_add_over.
Qed.
Lemma step_over cd op d w w' r : at_end (b_out (w_base w)) -> wstep cd op w = (w', r) -> wstep cd op (wover d w) = (wover d w', r).
Proof.
  intros E H. destruct op; cbn [wstep] in *; cbn [wover with_base w_cfg] in *.
  - destruct (add_node cd k data page w) as (w1, o) eqn:A. rewrite (add_over _ _ _ _ d _ _ _ E A). destruct o; cbn [some_node] in *; injection H as <- <-; reflexivity.
  - unfold add_node_points in *. cbn [wover with_base w_cfg] in *. destruct (c_pts c); [injection H as <- <-; reflexivity|].
    destruct (negb _ || negb _); [injection H as <- <-; reflexivity|]. destruct (points_pack _ _ _ _) as [data| |]; [|injection H as <- <-; reflexivity..].
    destruct (add_node cd k data page w) as (w1, o) eqn:A. rewrite (add_over _ _ _ _ d _ _ _ E A). destruct o; cbn [some_node] in *; injection H as <- <-; reflexivity.
  - unfold add_node_compressed in *. destruct (count =? 0); [injection H as <- <-; reflexivity|].
    destruct (do_add_node cd k data count true page w) as (w1, o) eqn:A. rewrite (do_add_over _ _ _ _ _ _ d _ _ _ E A). destruct o; cbn [some_node] in *; injection H as <- <-; reflexivity.
  - unfold change_node_page in *. cbn [wover with_base w_loaded w_pages w_base w_cfg] in *.
    destruct (negb (key_valid k)); [injection H as <- <-; reflexivity|]. destruct (negb (key_valid page)); [injection H as <- <-; reflexivity|].
    destruct (mget k (w_loaded w)) as [nd|]; [|injection H as <- <-; reflexivity]. destruct (negb (child_of k page)); [injection H as <- <-; reflexivity|].
    destruct (key_eqb (n_page nd) page); [injection H as <- <-; reflexivity|]. cbv zeta in *. destruct (mget (n_page nd) _) as [q|]; injection H as <- <-; reflexivity.
  - destruct (edit_header (c_hdr (w_cfg w)) h); injection H as <- <-; reflexivity.
  - injection H as <- <-; reflexivity.
  - destruct (set_nth slot e _); injection H as <- <-; reflexivity.
Qed.
Lemma run_over cd d : forall ops w w' l, at_end (b_out (w_base w)) -> wrun cd ops w = (w', l) -> wrun cd ops (wover d w) = (wover d w', l) /\ at_end (b_out (w_base w')).
Proof.
  induction ops as [|op ops IH]; intros w w' l E H; cbn [wrun] in *; [injection H as <- <-; auto|].
  destruct (wstep cd op w) as (w1, r) eqn:S. rewrite (step_over _ _ d _ _ _ E S).
  assert (E1 : at_end (b_out (w_base w1))) by (destruct (wstep_grows _ _ _ _ _ E S) as (X & _); exact X).
  destruct r as [a| |]; [| |injection H as <- <-; auto].
  1-2: destruct (wrun cd ops w1) as (w2, l2) eqn:R; destruct (IH _ _ _ E1 R) as (A & B); rewrite A; injection H as <- <-; auto.
Qed.
Lemma open_over d c v : open_writer_on (holding d 0) c v = let! w := open_writer None c v in Ok (wover d w).
Proof.
  unfold open_writer_on, open_writer. destruct (init_writer c v) as [c0| |]; cbn [bind]; [|reflexivity..]. destruct (copc_offset c0) as [p| |]; cbn [bind]; [|reflexivity..].
  rewrite <- over_empty, over_put by now split. reflexivity.
Qed.
Lemma open_at_end c v w : open_writer None c v = Ok w -> at_end (b_out (w_base w)).
Proof. unfold open_writer. intros H. apply bind_ok in H as (c0 & _ & H). apply bind_ok in H as (p & _ & H). injection H as <-. apply put_at_end. now split. Qed.

Lemma lstep_over cd op d w w' r : at_end (b_out (lw_base w)) -> lstep cd op w = (w', r) -> lstep cd op (lover d w) = (lover d w', r).
Proof.
  intros E H. destruct op as [hp c|data n]; cbn [lstep] in *; cbn [lover lw_cfg lw_base] in *.
  - destruct (c_pts c); [injection H as <- <-; reflexivity|]. destruct (negb _ || negb _); [injection H as <- <-; reflexivity|].
    destruct (points_pack _ _ _ _) as [data| |]; [|injection H as <- <-; reflexivity..].
    destruct (write_chunk cd (z_hdr (lw_cfg w)) data 0 false (lw_base w)) as (b, o) eqn:C. rewrite (chunk_over _ _ _ _ _ d _ _ _ E C). destruct o; injection H as <- <-; reflexivity.
  - destruct (n =? 0); [injection H as <- <-; reflexivity|].
    destruct (write_chunk cd (z_hdr (lw_cfg w)) data n true (lw_base w)) as (b, o) eqn:C. rewrite (chunk_over _ _ _ _ _ d _ _ _ E C). destruct o; injection H as <- <-; reflexivity.
Qed.
Lemma lrun_over cd d : forall ops w w' l, at_end (b_out (lw_base w)) -> lrun cd ops w = (w', l) -> lrun cd ops (lover d w) = (lover d w', l) /\ at_end (b_out (lw_base w')).
Proof.
  induction ops as [|op ops IH]; intros w w' l E H; cbn [lrun] in *; [injection H as <- <-; auto|].
  destruct (lstep cd op w) as (w1, r) eqn:S. rewrite (lstep_over _ _ d _ _ _ E S).
  assert (E1 : at_end (b_out (lw_base w1))) by (destruct (lstep_grows _ _ _ _ _ E S) as (X & _); exact X).
  destruct r as [a| |]; [| |injection H as <- <-; auto].
  1-2: destruct (lrun cd ops w1) as (w2, l2) eqn:R; destruct (IH _ _ _ E1 R) as (A & B); rewrite A; injection H as <- <-; auto.
Qed.
Lemma lopen_over d z : open_laz_writer_on (holding d 0) z = let! w := open_laz_writer None z in Ok (lover d w).
Proof.
  unfold open_laz_writer_on, open_laz_writer. destruct (base_offset _ _) as [p| |]; cbn [bind]; [|reflexivity..].
  rewrite <- over_empty, over_put by now split. reflexivity.
Qed.
Lemma lopen_at_end z w : open_laz_writer None z = Ok w -> at_end (b_out (lw_base w)).
Proof. unfold open_laz_writer. intros H. apply bind_ok in H as (p & _ & H). injection H as <-. apply put_at_end. now split. Qed.

(* ---- Close leaves the chunks alone, whatever else the stream holds ---- *)
Lemma nth_error_skipn {A} (l : list A) k i : nth_error (skipn k l) i = nth_error l (k + i).
Proof. revert l. induction k as [|k IH]; intros [|x l]; cbn [skipn Nat.add nth_error]; auto. now destruct i. Qed.
Lemma nth_error_firstn {A} n : forall (l : list A) i, nth_error (firstn n l) i = if (i <? n)%nat then nth_error l i else None.
Proof.
  induction n as [|n IH]; intros l i; [now destruct i|]. destruct l as [|x l]; [cbn [firstn]; destruct i; cbn [nth_error]; now destruct (_ <? _)%nat|]. destruct i as [|i]; cbn [firstn nth_error]; [reflexivity|]. rewrite IH. reflexivity.
Qed.
Lemma nth_error_eq {A} : forall (l l' : list A), (forall i, nth_error l i = nth_error l' i) -> l = l'.
Proof.
  induction l as [|x l IH]; intros [|y l'] H; [reflexivity|specialize (H 0%nat); discriminate H..|]. pose proof (H 0%nat) as H0. cbn [nth_error] in H0. assert (x = y) as -> by congruence. f_equal. apply IH. intros i. exact (H (Datatypes.S i)).
Qed.
(* bytes a .. m-1 are the same in s', which stands within its contents *)
Definition keeps (a m : nat) (s s' : ostream) : Prop := good_out s' /\ (o_pos s' <= length (o_data s'))%nat /\ (m <= length (o_data s'))%nat /\
  forall i, (a <= i < m)%nat -> nth_error (o_data s') i = nth_error (o_data s) i.
Lemma keeps_refl a m s : good_out s -> (o_pos s <= length (o_data s))%nat -> (m <= length (o_data s))%nat -> keeps a m s s.
Proof. intros. split; auto. Qed.
Lemma splice_nth p x d i : (p <= length d)%nat -> (i < p \/ p + length x <= i)%nat -> nth_error (splice p x d) i = nth_error d i.
Proof.
  intros L C. unfold splice. assert (LF : length (firstn p d) = p) by (rewrite firstn_length; lia). destruct (Nat.lt_ge_cases i p) as [A|A].
  - rewrite nth_error_app1 by lia. rewrite <- (firstn_skipn p d) at 2. rewrite nth_error_app1 by lia. reflexivity.
  - rewrite nth_error_app2 by lia. rewrite LF, nth_error_app2 by lia. destruct (Nat.le_gt_cases (p + length x) (length d)) as [B|B].
    + rewrite nth_error_skipn. f_equal. lia.
    + rewrite skipn_all2 by lia. transitivity (@None byte); [destruct (i - p - length x)%nat; reflexivity|]. symmetry. apply nth_error_None. lia.
Qed.
Lemma splice_length p x d : (p <= length d)%nat -> length (splice p x d) = Nat.max (length d) (p + length x).
Proof. intros L. unfold splice. rewrite !app_length, firstn_length, skipn_length, Nat.min_l by exact L. lia. Qed.
Lemma keeps_put a m s t x : keeps a m s t -> (o_pos t + length x <= a \/ m <= o_pos t)%nat -> keeps a m s (put x t).
Proof.
  intros (G & P & M & K) C. pose proof (put_good x _ G) as G'. destruct G as (B & CP). split; [exact G'|]. unfold put in *. rewrite B, CP in *. cbn [o_data o_pos] in *. rewrite splice_length by exact P. split; [lia|]. split; [lia|].
  intros i I. rewrite splice_nth by lia. auto.
Qed.
Lemma keeps_end a m s t : keeps a m s t -> keeps a m s (seek_end t) /\ o_pos (seek_end t) = length (o_data (seek_end t)).
Proof. intros (G & P & M & K). rewrite seek_end_at by exact G. split; [|reflexivity]. split; [now split|]. cbn [o_data o_pos]. auto. Qed.
Lemma keeps_to a m s t p : keeps a m s t -> (p <= length (o_data t))%nat -> keeps a m s (seek_to p t) /\ o_pos (seek_to p t) = p.
Proof. intros (G & P & M & K) L. destruct G as (B & CP). unfold seek_to. rewrite B, CP. cbn [o_pos]. split; [|reflexivity]. split; [now split|]. cbn [o_data o_pos]. auto. Qed.
Lemma put_pos x t : good_out t -> o_pos (put x t) = (o_pos t + length x)%nat.
Proof. intros (B & C). unfold put. now rewrite B, C. Qed.

Definition kept (a m : nat) (s : ostream) (b : bwriter) : Prop := keeps a m s (b_out b) /\ (m <= o_pos (b_out b))%nat.
Lemma page_kept a m s od k w w' r : kept a m s (w_base w) -> write_page od k w = (w', r) -> kept a m s (w_base w').
Proof.
  intros (K & P) H. unfold write_page in H. destruct (mget k (w_pages w)) as [pg|]; [|injection H as <- _; now split]. cbv zeta in H.
  set (b1 := emit _ _) in H. assert (K1 : kept a m s b1).
  { unfold b1, emit, kept. cbn [with_out b_out]. destruct (keeps_end _ _ _ _ K) as (KE & PE). pose proof KE as (GE & _ & ME & _). split; [apply keeps_put; [exact KE|lia]|]. rewrite put_pos by exact GE. lia. }
  clearbody b1. destruct (INT32_MAX <? _); apply (f_equal fst) in H; cbn [fst] in H; subst w'; [exact K1|].
  destruct K1 as (K1 & P1). pose proof K1 as (G1 & _). destruct (key_eqb k root_key); cbn [w_cfg w_base with_cfg w_pages w_loaded with_base]; (unfold emit, kept; cbn [with_out b_out]; split; [apply keeps_put; [exact K1|lia]|rewrite put_pos by exact G1; lia]).
Qed.
Lemma tree_kept a m s od : forall f k w w' r, kept a m s (w_base w) -> write_page_tree f od k w = (w', r) -> kept a m s (w_base w').
Proof.
  induction f as [|f IH]; intros k w w' r K H; cbn [write_page_tree] in H; [injection H as <- _; exact K|]. destruct (mget k (w_pages w)) as [pg|]; [|injection H as <- _; exact K].
  assert (E : forall l w w' r, kept a m s (w_base w) -> each (write_page_tree f od) l w = (w', r) -> kept a m s (w_base w')).
  { clear - IH. induction l as [|x l IHl]; intros w w' r K H; cbn [each] in H; [injection H as <- _; exact K|]. destruct (write_page_tree f od x w) as (w1, r1) eqn:E1. pose proof (IH _ _ _ _ K E1) as K1.
    destruct r1 as [[]| |]; cbn [then_] in H; [|injection H as <- _; exact K1..]. exact (IHl _ _ _ K1 H). }
  destruct (each _ _ w) as (w1, r1) eqn:E1. pose proof (E _ _ _ _ K E1) as K1. destruct r1 as [[]| |]; cbn [then_] in H; [|injection H as <- _; exact K1..]. eapply page_kept; eauto.
Qed.
Lemma wkt_kept a m s wkt b : kept a m s b -> kept a m s (write_wkt wkt b).
Proof.
  intros (K & P). unfold write_wkt. destruct wkt as [|x wkt]; [now split|]. unfold emit, kept. cbn [with_out b_out]. pose proof K as (G & _). split; [apply keeps_put; [exact K|lia]|]. rewrite put_pos by exact G. lia.
Qed.
Lemma table_kept cd poff m s b b' r : 0 <= poff -> (Z.to_nat poff + 8 <= m)%nat -> keeps (Z.to_nat poff + 8) m s (b_out b) -> write_chunk_table cd poff b = (b', r) -> keeps (Z.to_nat poff + 8) m s (b_out b').
Proof.
  intros PO LM K H. unfold write_chunk_table in H. cbv zeta in H. destruct (keeps_end _ _ _ _ K) as (KE & PE). pose proof KE as (GE & LE & ME & _).
  cbn [with_out b_out b_open b_points b_evoff b_evcnt] in H. pose proof (keeps_put _ _ _ _ (enc_u32 0) KE ltac:(right; lia)) as K1. pose proof K1 as (G1 & _ & _).
  pose proof (put_pos (enc_u32 0) _ GE) as P1. destruct (UINT32_MAX <? _); [injection H as <- _; exact K1|]. injection H as <- _. unfold emit. cbn [with_out b_out].
  match goal with |- context [put ?x (put (enc_u32 0) _)] => pose proof (keeps_put _ _ _ _ x K1 ltac:(right; lia)) as K2 end. pose proof K2 as (G2 & _ & M2 & _).
  destruct (keeps_to _ _ _ _ (Z.to_nat poff) K2) as (K3 & P3); [lia|]. apply keeps_put; [exact K3|]. left. rewrite P3. unfold enc_u64. rewrite le_enc_length. lia.
Qed.
Lemma close_keeps cd od w w' poff m s : b_open (w_base w) = true -> copc_offset (w_cfg w) = Ok poff -> 0 <= poff -> (Z.to_nat poff + 8 <= m)%nat -> keeps (Z.to_nat poff + 8) m s (b_out (w_base w)) ->
  close cd od w = (w', Ok tt) -> Z.of_nat (length (file w')) < 2 ^ 64 -> keeps (Z.to_nat poff + 8) m s (b_out (w_base w')).
Proof.
  intros O CO PO LM K H LEN. unfold close in H. rewrite O, CO in H. cbn [negb] in H. destruct (write_chunk_table cd poff (w_base w)) as (b1, r1) eqn:E1. pose proof (table_kept _ _ _ _ _ _ _ PO LM K E1) as K1.
  destruct r1 as [[]| |]; [|discriminate H..]. cbv zeta in H. cbn [with_out b_out] in H. destruct (keeps_end _ _ _ _ K1) as (K2 & P2). pose proof K2 as (_ & _ & M2 & _).
  set (w2 := with_base _ w) in H. assert (KW : kept (Z.to_nat poff + 8) m s (w_base w2)) by (unfold w2, kept; cbn [with_base w_base b_out]; split; [exact K2|lia]). clearbody w2.
  destruct (compute_hierarchy _ _) as [PG| |]; [|discriminate H..]. destruct (write_page_tree _ od root_key _) as (w3, r3) eqn:E3. apply (tree_kept (Z.to_nat poff + 8) m s) in E3; [|exact KW].
  destruct r3 as [[]| |]; cbn [then_] in H; [|discriminate H..]. pose proof (wkt_kept _ _ _ (c_wkt (w_cfg w3)) _ E3) as K4. set (w4 := with_base (write_wkt _ _) w3) in H. change (write_wkt (c_wkt (w_cfg w3)) (w_base w3)) with (w_base w4) in K4. clearbody w4.
  unfold copc_write_header, write_las_header in H. destruct K4 as (K4 & _). destruct (let! eb := _ in _) as [h| |]; [|discriminate H..]. destruct (copc_vlrs (w_cfg w4)) as [v| |]; [|discriminate H..]. cbv zeta in H. unfold emit in H. cbn [with_out b_out] in H.
  destruct (keeps_to _ _ _ _ 0 K4) as (K5 & P5); [lia|]. pose proof K5 as (G5 & _). rewrite <- put_app in H. set (t := put _ (seek_to 0 _)) in H.
  destruct (poff <? tell64 t) eqn:T; cbn [then_] in H; [discriminate H|]. apply (f_equal fst) in H. cbn [fst] in H. subst w'. cbn [with_base w_base b_out with_out]. unfold file in LEN. cbn [with_base w_base b_out with_out] in LEN.
  assert (GT : good_out t) by (apply put_good; exact G5). assert (PT : o_pos t = length (enc_header14 h ++ v)) by (unfold t; rewrite put_pos by exact G5; rewrite P5; lia).
  assert (LT : (o_pos t <= length (o_data t))%nat). { unfold t, put. destruct G5 as (B5 & C5). rewrite B5, C5. cbn [o_data o_pos]. rewrite splice_length; [lia|]. rewrite P5. lia. }
  rewrite tell64_small in T by (try exact GT; lia). apply Z.ltb_ge in T. apply keeps_put; [exact K5|]. left. rewrite P5. lia.
Qed.
Lemma bytes_at_keeps a m s t off len : keeps a m s t -> 0 <= off -> 0 <= len -> (a <= Z.to_nat off)%nat -> (Z.to_nat off + Z.to_nat len <= m)%nat -> bytes_at off len (o_data t) = bytes_at off len (o_data s).
Proof.
  intros (_ & _ & _ & K) A B C D. unfold bytes_at. apply nth_error_eq. intros i. rewrite !nth_error_firstn, !nth_error_skipn. destruct (Nat.ltb_spec i (Z.to_nat len)); [|reflexivity]. apply K. lia.
Qed.
