(* ProofFile2.v - buffered files and the traces of the writers *)
From Verif Require Import Base BaseFacts ModelFloat ModelKey ModelGeom ModelEntry ModelPoint ModelPoints ModelHeader ModelVlr ModelExtents ModelConfig
  ModelStream ModelWriter ModelTrace ModelFile ProofStream ProofTrace ProofTrace2.
Local Open Scope nat_scope.

(* disk plus buffer is the stream *)
Lemma buffered_stream l s s2 : buffered l s s2 -> put (f_pend s2) (f_dev s2) = play l (put (f_pend s) (f_dev s)).
Proof.
  induction 1 as [s|l s s1 n B IH|l s s1 o B IH]; [reflexivity| |].
  - cbn [flush f_pend f_dev]. rewrite <- put_app, firstn_skipn. exact IH.
  - rewrite play_app. cbn [play]. rewrite <- IH. destruct o; cbn [file_op f_pend f_dev do_sop]; [now rewrite put_app|apply put_nil..].
Qed.
Lemma buffered_app a b s t u : buffered a s t -> buffered b t u -> buffered (a ++ b) s u.
Proof. intros A B. induction B as [t|l t t1 n B IH|l t t1 o B IH]; [now rewrite app_nil_r|now apply buf_flush, IH|]. rewrite app_assoc. now apply buf_op, IH. Qed.
(* the operations whose bytes are still in the buffer are writes, in this order *)
Lemma buffered_split l s s2 : buffered l s s2 -> f_pend s = [] ->
  exists l1 done bs, l = l1 ++ map SPut bs /\ f_dev s2 = put done (play l1 (f_dev s)) /\ done ++ f_pend s2 = concat bs.
Proof.
  intros B P. induction B as [s|l s s1 n B IH|l s s1 o B IH].
  - exists [], [], []. rewrite P, put_nil. auto.
  - destruct (IH P) as (l1 & d & bs & E1 & E2 & E3). exists l1, (d ++ firstn n (f_pend s1)), bs. cbn [flush f_pend f_dev]. rewrite put_app, <- E2, <- app_assoc, firstn_skipn. auto.
  - destruct (IH P) as (l1 & d & bs & E1 & E2 & E3). destruct o as [b| |p].
    + exists l1, d, (bs ++ [b]). cbn [file_op f_pend f_dev]. rewrite map_app, app_assoc, <- E1, concat_app, <- E3. cbn [map concat]. now rewrite app_nil_r, app_assoc.
    + exists (l ++ [SEnd]), [], []. cbn [file_op f_pend f_dev map]. rewrite put_nil, play_app, app_nil_r. cbn [play]. split; [reflexivity|]. split; [|reflexivity]. f_equal.
      rewrite (buffered_stream _ _ _ B). now rewrite P, put_nil.
    + exists (l ++ [SSeek p]), [], []. cbn [file_op f_pend f_dev map]. rewrite put_nil, play_app, app_nil_r. cbn [play]. split; [reflexivity|]. split; [|reflexivity]. f_equal.
      rewrite (buffered_stream _ _ _ B). now rewrite P, put_nil.
Qed.
Lemma puts_cut bs : forall s m, cut_short (map SPut bs) s (o_data (put (firstn m (concat bs)) s)).
Proof.
  induction bs as [|b bs IH]; intros s m; cbn [map concat cut_short]; [now rewrite firstn_nil, put_nil|].
  destruct (Nat.le_gt_cases m (length b)) as [Q|Q].
  - left. exists m. rewrite firstn_app. replace (m - length b) with 0 by lia. now rewrite firstn_O, app_nil_r.
  - right. rewrite firstn_app, (firstn_all2 b) by lia. rewrite put_app. apply IH.
Qed.
(* what is on disk is what a program killed earlier would have left on an unbuffered stream *)
Lemma disk_cut l s s2 : buffered l s s2 -> f_pend s = [] -> forall n, cut_short l (f_dev s) (o_data (put (firstn n (f_pend s2)) (f_dev s2))).
Proof.
  intros B P n. destruct (buffered_split _ _ _ B P) as (l1 & d & bs & -> & E2 & E3). apply cut_app_r. rewrite E2, <- put_app.
  replace (d ++ firstn n (f_pend s2)) with (firstn (length d + n) (concat bs)) by (rewrite <- E3; apply firstn_app_2). apply puts_cut.
Qed.
Lemma killed_cut l f : disk_when_killed l f -> cut_short l (empty_out None) f.
Proof.
  intros (l1 & l2 & s & -> & B & ->). apply cut_app_l. pose proof (disk_cut _ _ _ B eq_refl 0) as D. rewrite firstn_O, put_nil in D. exact D.
Qed.
(* with a seek done, nothing from before it is in the buffer *)
Lemma buffered_seek a o b s2 : buffered (a ++ o :: b) new_file s2 -> (forall x, o <> SPut x) ->
  exists s1, f_pend s1 = [] /\ f_dev s1 = play (a ++ [o]) (empty_out None) /\ buffered b s1 s2.
Proof.
  intros B N. remember (a ++ o :: b) as l eqn:E. remember new_file as s0 eqn:E0. revert a b E. induction B as [s|l s s1 n B IH|l s s1 o' B IH]; intros a b E; subst s.
  - destruct a; discriminate.
  - destruct (IH eq_refl a b E) as (s & P & D & B2). exists s. split; [exact P|]. split; [exact D|]. now apply buf_flush.
  - destruct b as [|b0 b' _] using rev_ind.
    + apply app_inj_tail in E as (-> & ->). exists (file_op o s1). split; [destruct o; [now elim (N b)|reflexivity..]|]. split; [|constructor].
      rewrite play_app. pose proof (buffered_stream _ _ _ B) as S. cbn [new_file f_pend f_dev] in S. rewrite put_nil in S. rewrite <- S. destruct o; [now elim (N b)|reflexivity..].
    + rewrite app_comm_cons, app_assoc in E. apply app_inj_tail in E as (-> & ->). destruct (IH eq_refl a b' eq_refl) as (s & P & D & B2).
      exists s. split; [exact P|]. split; [exact D|]. now apply buf_op.
Qed.
