(* ProofTrace2.v - parts of the stream that a sequence of operations leaves alone *)
From Verif Require Import Base BaseFacts ModelFloat ModelKey ModelGeom ModelEntry ModelPoint ModelPoints ModelHeader ModelVlr ModelExtents ModelConfig
  ModelStream ModelWriter ModelTrace ProofStream ProofTrace.
Local Open Scope nat_scope.

Lemma cut_start l s : cut_short l s (o_data s).
Proof. destruct l as [|[b| |p] l]; cbn [cut_short]; [reflexivity|left; exists 0%nat; now rewrite firstn_O, put_nil|left; exists 0%nat; reflexivity|left; exists 0%nat; reflexivity]. Qed.
Lemma cut_app a b s f : cut_short (a ++ b) s f -> cut_short a s f \/ cut_short b (play a s) f.
Proof.
  revert s. induction a as [|o a IH]; intros s H; [now right|]. cbn [app cut_short play] in *. destruct H as [H|H]; [now left; left|]. destruct (IH _ H); auto.
Qed.
Lemma cut_app_l a b s f : cut_short a s f -> cut_short (a ++ b) s f.
Proof.
  revert s. induction a as [|o a IH]; intros s H; [cbn in H; subst; apply cut_start|]. cbn [app cut_short] in *. destruct H as [H|H]; auto.
Qed.
Lemma cut_app_r a b s f : cut_short b (play a s) f -> cut_short (a ++ b) s f.
Proof. revert s. induction a as [|o a IH]; intros s H; [exact H|]. cbn [app cut_short play] in *. auto. Qed.

Definition window (lo hi : nat) (d : bytes) : bytes := firstn (hi - lo) (skipn lo d).
(* every write of the sequence misses the positions lo .. hi-1 *)
Definition misses_at (lo hi : nat) (n : nat) (s : ostream) : Prop := o_bad s = true \/ o_pos s + n <= lo \/ hi <= o_pos s.
Fixpoint spares (lo hi : nat) (l : list sop) (s : ostream) : Prop :=
  match l with
  | [] => True
  | o :: r => match o with SPut b => misses_at lo hi (length b) s | _ => True end /\ spares lo hi r (do_sop o s)
  end.
Lemma spares_app lo hi a b s : spares lo hi a s -> spares lo hi b (play a s) -> spares lo hi (a ++ b) s.
Proof. revert s. induction a as [|o a IH]; intros s A B; [exact B|]. cbn [app spares play] in *. destruct A. split; auto. Qed.
Lemma splice_ge p b d : length d <= length (splice p b d).
Proof. unfold splice. rewrite !app_length, firstn_length, skipn_length. lia. Qed.
Lemma splice_window lo hi p b d : hi <= length d -> p + length b <= lo \/ hi <= p -> window lo hi (splice p b d) = window lo hi d.
Proof.
  intros L [H|H]; unfold window, splice.
  - destruct (Nat.le_gt_cases p (length d)) as [P|P].
    + f_equal. rewrite skipn_app, (skipn_all2 (firstn p d)) by (rewrite firstn_length; lia). cbn [app]. rewrite skipn_app, (skipn_all2 b) by (rewrite firstn_length; lia). cbn [app].
      rewrite ?skipn_add, ?firstn_length. f_equal. lia.
    + replace (hi - lo) with 0 by lia. reflexivity.
  - destruct (Nat.le_gt_cases lo hi) as [Q|Q]; [|replace (hi - lo) with 0 by lia; reflexivity]. rewrite skipn_app, firstn_length. replace (lo - _) with 0 by lia. cbn [skipn].
    rewrite firstn_app. rewrite skipn_length, firstn_length. replace (hi - lo - _) with 0 by lia. rewrite firstn_O, app_nil_r.
    rewrite skipn_firstn_comm, firstn_firstn. f_equal. lia.
Qed.
Definition solid (hi : nat) (s : ostream) : Prop := o_bad s = true \/ hi <= length (o_data s).
Lemma put_window lo hi b n s : solid hi s -> misses_at lo hi (length b) s -> window lo hi (o_data (put (firstn n b) s)) = window lo hi (o_data s).
Proof.
  intros S M. unfold put. destruct (o_bad s) eqn:B; [reflexivity|]. destruct S as [S|S]; [congruence|]. destruct M as [M|M]; [congruence|].
  cbv zeta. cbn [o_data]. apply splice_window; [exact S|]. assert (length (match o_cap s with Some c => firstn (c - o_pos s) (firstn n b) | None => firstn n b end) <= length b) by (destruct (o_cap s); rewrite ?firstn_length; lia). lia.
Qed.
Lemma put_full_window lo hi b s : solid hi s -> misses_at lo hi (length b) s -> window lo hi (o_data (put b s)) = window lo hi (o_data s).
Proof. intros S M. rewrite <- (firstn_all b) at 1. now apply put_window. Qed.
Lemma put_solid hi b s : solid hi s -> solid hi (put b s).
Proof. intros [H|H]; [left; unfold put; now rewrite H|]. right. unfold put. destruct (o_bad s); [exact H|]. cbn [o_data]. eapply Nat.le_trans; [exact H|apply splice_ge]. Qed.
Lemma sop_solid hi o s : solid hi s -> solid hi (do_sop o s).
Proof. destruct o as [b| |p]; cbn [do_sop]; [apply put_solid|..]; unfold seek_end, seek_to, solid; intros [H|H]; destruct (o_bad s) eqn:B; auto; discriminate. Qed.
Lemma play_solid hi l : forall s, solid hi s -> solid hi (play l s).
Proof. induction l as [|o l IH]; intros s H; [exact H|]. cbn [play]. apply IH. now apply sop_solid. Qed.
Lemma sop_window lo hi o s : solid hi s -> match o with SPut b => misses_at lo hi (length b) s | _ => True end -> window lo hi (o_data (do_sop o s)) = window lo hi (o_data s).
Proof. intros S M. destruct o as [b| |p]; cbn [do_sop]; [now apply put_full_window|..]; unfold seek_end, seek_to; destruct (o_bad s); reflexivity. Qed.
Lemma cut_window lo hi l f : forall s, solid hi s -> spares lo hi l s -> cut_short l s f -> window lo hi f = window lo hi (o_data s).
Proof.
  induction l as [|o l IH]; intros s S P H; cbn [cut_short spares] in *; [now subst|]. destruct P as (P1 & P2). destruct H as [(n & ->)|H].
  - destruct o as [b| |p]; [now apply put_window|reflexivity..].
  - rewrite (IH _ (sop_solid hi o s S) P2 H). now apply sop_window.
Qed.
Lemma play_window lo hi l s : solid hi s -> spares lo hi l s -> window lo hi (o_data (play l s)) = window lo hi (o_data s).
Proof.
  intros S P. apply (cut_window lo hi l _ s S P). revert s S P. induction l as [|o l IH]; intros s S P; [reflexivity|]. right. cbn [spares] in P. apply IH; [now apply sop_solid|tauto].
Qed.

(* sequences without absolute seeks, started behind the window *)
Definition tame (o : sop) : Prop := match o with SSeek _ => False | _ => True end.
Definition ahead (hi : nat) (s : ostream) : Prop := o_bad s = true \/ hi <= o_pos s <= length (o_data s).
Lemma ahead_solid hi s : ahead hi s -> solid hi s.
Proof. unfold ahead, solid. intuition lia. Qed.
Lemma put_ahead hi b s : ahead hi s -> ahead hi (put b s).
Proof.
  unfold ahead, put. destruct (o_bad s) eqn:B; [now rewrite B|]. intros [H|H]; [discriminate|]. cbn [o_bad o_pos o_data]. right. unfold splice. rewrite !app_length, firstn_length, skipn_length. lia.
Qed.
Lemma tame_spares lo hi l : forall s, Forall tame l -> ahead hi s -> spares lo hi l s /\ ahead hi (play l s).
Proof.
  induction l as [|o l IH]; intros s T A; [now split|]. inversion T as [|? ? T1 T2]; subst. cbn [spares play].
  assert (A2 : ahead hi (do_sop o s)).
  { destruct o as [b| |p]; cbn [do_sop]; [now apply put_ahead| |destruct T1]. unfold seek_end, ahead in *. destruct (o_bad s) eqn:B; [left; exact B|]. right. destruct A; [discriminate|]. cbn. lia. }
  destruct (IH _ T2 A2) as (P & Q). split; [|exact Q]. split; [|exact P]. destruct o as [b| |p]; [|exact I..]. unfold misses_at. destruct A as [A|A]; [now left|right; right; lia].
Qed.
Lemma end_spares lo hi l s : Forall tame l -> solid hi s -> spares lo hi (SEnd :: l) s.
Proof.
  intros T S. cbn [spares]. split; [exact I|]. apply tame_spares; [exact T|]. cbn [do_sop]. unfold seek_end, ahead. destruct (o_bad s) eqn:B; [left; exact B|]. right. destruct S; [congruence|]. cbn. lia.
Qed.
(* writes one after the other, starting in front of the window *)
Lemma puts_spares lo hi bs : forall s, o_bad s = true \/ o_pos s + length (concat bs) <= lo -> spares lo hi (map SPut bs) s.
Proof.
  induction bs as [|b bs IH]; intros s H; [exact I|]. cbn [map spares do_sop concat] in *. rewrite app_length in H. split; [unfold misses_at; intuition lia|]. apply IH.
  unfold put. destruct (o_bad s) eqn:B; [now left|]. cbn [o_bad o_pos]. destruct H as [H|H]; [discriminate|]. right. destruct (o_cap s); rewrite ?firstn_length; lia.
Qed.
(* the contents while they are written *)
Lemma cut_puts bs f : forall s, cut_short (map SPut bs) s f -> exists n, f = o_data (put (firstn n (concat bs)) s).
Proof.
  induction bs as [|b bs IH]; intros s H; cbn [map cut_short concat] in *; [exists 0; now rewrite firstn_nil, put_nil|]. destruct H as [(n & ->)|H].
  - exists (Nat.min n (length b)). rewrite firstn_app. replace (Nat.min n (length b) - length b) with 0 by lia. rewrite firstn_O, app_nil_r.
    destruct (Nat.le_gt_cases n (length b)); [now rewrite Nat.min_l by lia|]. rewrite Nat.min_r by lia. now rewrite firstn_all, (firstn_all2 b) by lia.
  - destruct (IH _ H) as (n & ->). exists (length b + n). rewrite firstn_app_2, put_app. reflexivity.
Qed.

(* ---- the operations of the writers ---- *)
Lemma chunk_tame cd h data n comp b : Forall tame (t_write_chunk cd h data n comp b).
Proof. unfold t_write_chunk. destruct (Z.leb _ _); [constructor|]. destruct (if comp then _ else _) as [(x, m)| |]; repeat constructor. Qed.
Lemma add_tame cd k data page w : Forall tame (t_add_node cd k data page w).
Proof.
  unfold t_add_node, t_do_add_node. destruct data; [constructor|]. destruct (Z.eqb _ _); [constructor|]. destruct (negb _); [constructor|]. destruct (_ || _); [constructor|]. destruct (negb _); [constructor|]. apply chunk_tame.
Qed.
Lemma step_tame cd op w : Forall tame (t_step cd op w).
Proof.
  destruct op as [k data page|k hp c page|k data n page|k page|h|i|slot e]; cbn [t_step]; try constructor; [apply add_tame|..].
  - destruct (c_pts c); [constructor|]. destruct (_ || _); [constructor|]. destruct (points_pack _ _ _ _); [apply add_tame|constructor..].
  - destruct (Z.eqb n 0); [constructor|]. unfold t_do_add_node. destruct (_ || _); [constructor|]. destruct (negb _); [constructor|]. apply chunk_tame.
Qed.
Lemma run_tame cd ops : forall w, Forall tame (t_run cd ops w).
Proof. induction ops as [|op ops IH]; intros w; [constructor|]. cbn [t_run]. apply Forall_app. split; [apply step_tame|]. destruct (wstep cd op w) as (w1, [r| |]); [apply IH..|constructor]. Qed.
Lemma puts_tame {A} (g : A -> bytes) l : Forall tame (map (fun x => SPut (g x)) l).
Proof. apply Forall_forall. intros o I. apply in_map_iff in I as (x & <- & _). exact I. Qed.
Lemma page_tame od k w : Forall tame (t_write_page od k w).
Proof.
  unfold t_write_page. destruct (mget k (w_pages w)) as [p|]; [|constructor]. cbv zeta. apply Forall_app. split; [repeat constructor|]. destruct (Z.ltb _ _); [constructor|]. apply Forall_app. split; apply puts_tame.
Qed.
Lemma each_tame {A} (f : A -> writer -> writer * outcome unit) t : (forall a w, Forall tame (t a w)) -> forall l w, Forall tame (t_each f t l w).
Proof. intros H. induction l as [|a l IH]; intros w; [constructor|]. cbn [t_each]. apply Forall_app. split; [apply H|]. destruct (f a w) as (w1, [u| |]); [apply IH|constructor..]. Qed.
Lemma tree_tame od fuel : forall k w, Forall tame (t_page_tree fuel od k w).
Proof.
  induction fuel as [|fuel IH]; intros k w; [constructor|]. cbn [t_page_tree]. destruct (mget k (w_pages w)) as [p|]; [|constructor]. apply Forall_app. split; [now apply each_tame|].
  destruct (each _ _ w) as (w1, [u| |]); [apply page_tame|constructor..].
Qed.
Lemma wkt_tame wkt : Forall tame (t_wkt wkt).
Proof. destruct wkt; repeat constructor. Qed.
Lemma laz_run_tame cd ops : forall w, Forall tame (t_laz_run cd ops w).
Proof.
  induction ops as [|op ops IH]; intros w; [constructor|]. cbn [t_laz_run]. apply Forall_app. split; [|destruct (lstep cd op w) as (w1, [r| |]); [apply IH..|constructor]].
  destruct op as [hp c|data n]; cbn [t_laz_step]; [|destruct (Z.eqb n 0); [constructor|apply chunk_tame]]. destruct (c_pts c); [constructor|]. destruct (_ || _); [constructor|]. destruct (points_pack _ _ _ _); [apply chunk_tame|constructor..].
Qed.

(* the chunk table: appended, then 8 bytes at the start of the point data *)
Lemma table_spares lo hi cd poff b : ahead hi (b_out b) -> (hi <= Z.to_nat poff \/ Z.to_nat poff + 8 <= lo) -> spares lo hi (t_chunk_table cd poff b) (b_out b).
Proof.
  intros A H. unfold t_chunk_table. cbv zeta.
  destruct (tame_spares lo hi [SEnd; SPut (enc_u32 0)] (b_out b)) as (P & Q); [repeat constructor|exact A|]. apply spares_app; [exact P|]. destruct (Z.ltb _ _); [exact I|].
  set (s := play _ _) in *. clearbody s. match goal with |- spares _ _ [SPut ?x; SPut ?y; SSeek _; SPut ?z] _ => destruct (tame_spares lo hi [SPut x; SPut y] s) as (P1 & Q1); [repeat constructor|exact Q|]; change [SPut x; SPut y; SSeek (Z.to_nat poff); SPut z] with ([SPut x; SPut y] ++ [SSeek (Z.to_nat poff); SPut z]) end.
  apply spares_app; [exact P1|]. set (s2 := play _ s) in *. clearbody s2. cbn [spares do_sop]. split; [exact I|]. split; [|exact I]. unfold misses_at, seek_to, enc_u64. rewrite le_enc_length. destruct (o_bad s2) eqn:B; [now left|]. right. cbn [o_pos]. intuition.
Qed.
Lemma body_spares lo hi cd od w poff : copc_offset (w_cfg w) = Ok poff -> ahead hi (b_out (w_base w)) -> (hi <= Z.to_nat poff \/ Z.to_nat poff + 8 <= lo) -> spares lo hi (t_body cd od w) (b_out (w_base w)).
Proof.
  intros E A H. unfold t_body. destruct (negb _); [exact I|]. rewrite E. apply spares_app; [now apply table_spares|]. rewrite play_table.
  assert (S : solid hi (b_out (fst (write_chunk_table cd poff (w_base w))))) by (rewrite <- play_table; apply play_solid, ahead_solid, A).
  destruct (write_chunk_table cd poff (w_base w)) as (b1, [u| |]); [|exact I..]. cbn [fst] in *. apply end_spares; [|exact S]. destruct (compute_hierarchy _ _); [|constructor..]. apply Forall_app. split; [apply tree_tame|].
  destruct (write_page_tree _ _ _ _) as (w4, [v| |]); [apply wkt_tame|constructor..].
Qed.
Lemma base_body_spares lo hi cd z b poff : base_offset (z_hdr z) (z_ebs z) = Ok poff -> ahead hi (b_out b) -> (hi <= Z.to_nat poff \/ Z.to_nat poff + 8 <= lo) -> spares lo hi (t_base_body cd z b) (b_out b).
Proof.
  intros E A H. unfold t_base_body. destruct (negb _); [exact I|]. rewrite E. apply spares_app; [now apply table_spares|]. rewrite play_table.
  assert (S : solid hi (b_out (fst (write_chunk_table cd poff b)))) by (rewrite <- play_table; apply play_solid, ahead_solid, A).
  destruct (write_chunk_table cd poff b) as (b1, [u| |]); [|exact I..]. cbn [fst] in *. apply end_spares; [|exact S]. apply wkt_tame.
Qed.
