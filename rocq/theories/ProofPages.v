(* ProofPages.v - writing the pages *)
From Coq Require Import Permutation.
From Verif Require Import Base BaseFacts ModelFloat ModelKey ModelGeom ModelEntry ModelPoint ModelPoints ModelHeader ModelVlr ModelExtents ModelConfig
  ModelStream ModelWriter SpecKey SpecPoint SpecConfig SpecWriter SpecHier ProofKey ProofPoint ProofPoint2 ProofHeader ProofStream ProofWriter ProofWriter2 ProofTree.

Lemma find_page_app k a b : find_page k (a ++ b) = match find_page k a with Some i => Some i | None => find_page k b end.
Proof. unfold find_page. induction a as [|i a IH]; [reflexivity|]. cbn [app find]. now destruct (key_eqb (pi_key i) k). Qed.
Lemma find_page_key k l i : find_page k l = Some i -> pi_key i = k /\ In i l.
Proof. intros H. apply find_some in H as (A & B). apply key_eqb_eq in B. now split. Qed.
Lemma find_page_none k l : find_page k l = None <-> ~ In k (map pi_key l).
Proof.
  unfold find_page. induction l as [|i l IH]; cbn [map In find]; [tauto|]. destruct (key_eqb_spec (pi_key i) k) as [E|E].
  - split; [discriminate|]. intros H. now destruct H; left.
  - rewrite IH. tauto.
Qed.

Definition page_header (od : orders) (k : key) (size : Z) : bytes := enc_evlr_header (mkVlrH true 0 s_copc 1000 size (od_desc od k)).
Definition blob (od : orders) (i : page_info) : bytes := page_header od (pi_key i) (pi_size i) ++ flat_map entry_pack (pi_ents i).
Lemma put_str_length n s : length (put_str n s) = n.
Proof. unfold put_str. rewrite app_length, zeros_length, firstn_length. lia. Qed.
Lemma evlr_header_length v : length (enc_evlr_header v) = 60%nat.
Proof. unfold enc_evlr_header, enc_u16, enc_u64. rewrite !app_length, !le_enc_length, !put_str_length. reflexivity. Qed.
Lemma vlr_header_length v : length (enc_vlr_header v) = 54%nat.
Proof. unfold enc_vlr_header, enc_u16. rewrite !app_length, !le_enc_length, !put_str_length. reflexivity. Qed.
Lemma pack_all_length l : length (flat_map entry_pack l) = (32 * length l)%nat.
Proof. rewrite (flat_map_length_const entry_pack 32) by apply entry_pack_length. lia. Qed.

(* the entries of a page whose sub-pages have been written *)
Definition sub_entry (ws : list page_info) (s : key) : entry :=
  match find_page s ws with Some i => mkEntry s (pi_off i) (pi_size i) (-1) | None => invalid_entry end.
Definition page_entries (od : orders) (k : key) (P : wpage) (ws : list page_info) : list entry :=
  map n_entry (od_nodes od k (map snd (wp_nodes P))) ++ map (sub_entry ws) (od_subs od k (wp_subs P)).

(* pages written one after the other from the end of D0 *)
Inductive pages_at (od : orders) (PG : kmap wpage) (D0 : bytes) : list page_info -> Prop :=
| pages_nil : pages_at od PG D0 []
| pages_snoc ws k P : pages_at od PG D0 ws -> mget k PG = Some P -> find_page k ws = None ->
    (forall s, In s (wp_subs P) -> find_page s ws <> None) ->
    let size := 32 * (Z.of_nat (length (wp_nodes P)) + Z.of_nat (length (wp_subs P))) in size <= INT32_MAX ->
    pages_at od PG D0 (ws ++ [mkPI k (Z.of_nat (length (D0 ++ concat (map (blob od) ws))) + 60) size (page_entries od k P ws)]).

Definition set_root (i : page_info) (c : config) : config :=
  mkCfg (c_hdr c) (c_wkt c) (c_ebs c) (mkInfo (i_cx (c_info c)) (i_cy (c_info c)) (i_cz (c_info c)) (i_half (c_info c)) (i_spacing (c_info c)) (pi_off i) (pi_size i)) (c_exts c).
Definition cfg_with (c : config) (ws : list page_info) : config := match find_page root_key ws with Some i => set_root i c | None => c end.
Definition written (PG : kmap wpage) (ws : list page_info) (k : key) : option wpage :=
  match mget k PG with
  | Some P => Some (match find_page k ws with Some i => mkWP (pi_off i) (pi_size i) (wp_nodes P) (wp_subs P) | None => P end)
  | None => None
  end.
Record pinv (od : orders) (PG : kmap wpage) (w0 : writer) (ws : list page_info) (w : writer) : Prop := {
  pv_at : pages_at od PG (file w0) ws;
  pv_base : w_base w = with_out (mkOut (file w) (length (file w)) false None) (w_base w0);
  pv_file : file w = file w0 ++ concat (map (blob od) ws);
  pv_cfg : w_cfg w = cfg_with (w_cfg w0) ws;
  pv_loaded : w_loaded w = w_loaded w0;
  pv_pages : forall k, mget k (w_pages w) = written PG ws k }.

Definition outb (d : bytes) (b : bwriter) : bwriter := with_out (mkOut d (length d) false None) b.
Lemma emit_outb x d b : emit x (outb d b) = outb (d ++ x) b.
Proof. unfold emit, outb. cbn [b_out with_out]. rewrite put_end by now repeat split. reflexivity. Qed.
Lemma seek_outb d b : with_out (seek_end (b_out (outb d b))) (outb d b) = outb d b.
Proof. unfold outb. cbn [b_out with_out]. rewrite seek_end_at by now split. reflexivity. Qed.
Lemma tell_outb d b : Z.of_nat (length d) < 2 ^ 64 -> tell64 (b_out (outb d b)) = Z.of_nat (length d).
Proof. intros H. apply tell64_small; [now split|exact H]. Qed.

Lemma write_page_eq od k w b0 D P : w_base w = outb D b0 -> mget k (w_pages w) = Some P -> Z.of_nat (length D) + 60 < 2 ^ 64 ->
  let size := 32 * (Z.of_nat (length (wp_nodes P)) + Z.of_nat (length (wp_subs P))) in
  let off := Z.of_nat (length D) + 60 in
  let D' := D ++ page_header od k size in
  write_page od k w =
  if INT32_MAX <? size then (mkW (outb D' b0) (w_cfg w) (w_loaded w) (mset k (mkWP off (wp_size P) (wp_nodes P) (wp_subs P)) (w_pages w)), Throw)
  else let pages := mset k (mkWP off size (wp_nodes P) (wp_subs P)) (w_pages w) in
    (mkW (outb (D' ++ flat_map (fun n => entry_pack (n_entry n)) (od_nodes od k (map snd (wp_nodes P))) ++
       flat_map (fun s => match mget s pages with Some q => entry_pack (mkEntry s (wp_off q) (wp_size q) (-1)) | None => [] end) (od_subs od k (wp_subs P))) b0)
       (if key_eqb k root_key then set_root (mkPI k off size []) (w_cfg w) else w_cfg w) (w_loaded w) pages, Ok tt).
Proof.
  intros B E LD. cbv zeta. unfold write_page. rewrite E. cbv zeta. rewrite B, seek_outb. rewrite <- Z.mul_add_distr_l.
  change (enc_evlr_header _) with (page_header od k (32 * (Z.of_nat (length (wp_nodes P)) + Z.of_nat (length (wp_subs P))))).
  rewrite emit_outb. rewrite tell_outb by (rewrite app_length; unfold page_header; rewrite evlr_header_length; lia).
  assert (LO : Z.of_nat (length (D ++ page_header od k (32 * (Z.of_nat (length (wp_nodes P)) + Z.of_nat (length (wp_subs P)))))) = Z.of_nat (length D) + 60)
    by (rewrite app_length; unfold page_header; rewrite evlr_header_length; lia).
  rewrite LO. destruct (INT32_MAX <? _); [reflexivity|].
  destruct (key_eqb k root_key); cbn [w_cfg w_base with_cfg w_pages w_loaded with_base]; rewrite emit_outb; reflexivity.
Qed.

Lemma write_page_spec od PG w0 ws w k P w' r : (forall k l, Permutation (od_nodes od k l) l) -> (forall k l, Permutation (od_subs od k l) l) ->
  pinv od PG w0 ws w -> mget k PG = Some P -> find_page k ws = None -> (forall s, In s (wp_subs P) -> find_page s ws <> None /\ exists S, mget s PG = Some S) ->
  write_page od k w = (w', r) -> Z.of_nat (length (file w')) < 2 ^ 64 ->
  (r = Throw /\ INT32_MAX < 32 * (Z.of_nat (length (wp_nodes P)) + Z.of_nat (length (wp_subs P)))) \/
  (r = Ok tt /\ exists i, pi_key i = k /\ pinv od PG w0 (ws ++ [i]) w').
Proof.
  intros RN RS [A B F C L PP] EP NF SF H LEN.
  assert (NS : ~ In k (wp_subs P)). { intros X. now destruct (proj1 (SF k X)). }
  assert (EW : mget k (w_pages w) = Some P) by (rewrite PP; unfold written; now rewrite EP, NF).
  assert (LD : Z.of_nat (length (file w)) + 60 < 2 ^ 64).
  { revert H. unfold write_page. rewrite EW. cbv zeta. rewrite B. fold (outb (file w) (w_base w0)). rewrite seek_outb, emit_outb.
    set (D' := file w ++ _). assert (LL : (length (file w) + 60 <= length D')%nat) by (unfold D'; rewrite app_length, evlr_header_length; lia).
    clearbody D'. destruct (INT32_MAX <? _); intros H; injection H as <- <-; revert LEN; unfold file at 1; cbn [w_base with_base].
    - cbn. lia.
    - destruct (key_eqb k root_key); cbn [w_cfg w_base with_cfg w_pages w_loaded with_base]; rewrite emit_outb; cbn [outb with_out b_out o_data]; rewrite app_length; lia. }
  pose proof (write_page_eq od k w (w_base w0) (file w) P B EW LD) as W. cbv zeta in W. rewrite H in W. clear H.
  set (size := 32 * (Z.of_nat (length (wp_nodes P)) + Z.of_nat (length (wp_subs P)))) in *.
  set (off := Z.of_nat (length (file w)) + 60) in *.
  destruct (Z.ltb_spec INT32_MAX size) as [BIG|FIT].
  { left. injection W as _ ->. now split. }
  right. set (pages := mset k _ _) in W. set (body := _ ++ flat_map _ (od_subs od k (wp_subs P))) in W.
  pose proof (f_equal snd W) as Hr. pose proof (f_equal fst W) as Hw. cbn [fst snd] in Hr, Hw. clear W. subst r. split; [reflexivity|].
  set (i := mkPI k off size (page_entries od k P ws)). exists i. split; [reflexivity|].
  assert (BODY : body = flat_map entry_pack (pi_ents i)).
  { unfold body, i. cbn [pi_ents]. unfold page_entries. rewrite flat_map_app. f_equal.
    - rewrite !flat_map_concat_map, map_map. reflexivity.
    - rewrite (flat_map_concat_map entry_pack), map_map, flat_map_concat_map. f_equal. apply map_ext_in. intros s S.
      apply (Permutation_in _ (RS _ _)) in S. destruct (SF s S) as (FS & Q & EQ). unfold pages. rewrite mget_mset_other by (intros ->; now destruct NS).
      rewrite PP. unfold written, sub_entry. rewrite EQ. destruct (find_page s ws); [reflexivity|congruence]. }
  rewrite BODY in Hw. clear BODY body. rewrite <- app_assoc in Hw. fold (page_header od k size) in Hw.
  change (page_header od k size ++ _) with (blob od i) in Hw.
  assert (FW : file w' = file w ++ blob od i) by (rewrite Hw; reflexivity).
  constructor.
  - assert (EO : off = Z.of_nat (length (file w0 ++ concat (map (blob od) ws))) + 60) by (unfold off; now rewrite F).
    unfold i. rewrite EO. apply pages_snoc; auto. intros s S. apply SF, S.
  - rewrite FW, Hw. reflexivity.
  - rewrite FW, F, map_app, concat_app. cbn [map concat]. now rewrite app_nil_r, app_assoc.
  - rewrite Hw. cbn [w_cfg]. unfold cfg_with in *. rewrite find_page_app. destruct (key_eqb_spec k root_key) as [->|N].
    + rewrite NF in *. cbn. rewrite C. reflexivity.
    + rewrite C. destruct (find_page root_key ws); [reflexivity|]. cbn. destruct (key_eqb_spec k root_key); [congruence|reflexivity].
  - rewrite Hw. exact L.
  - intros q. rewrite Hw. cbn [w_pages]. unfold pages. rewrite mget_mset. unfold written. rewrite find_page_app. destruct (key_eqb_spec k q) as [<-|N].
    + rewrite EP, NF. cbn. now rewrite key_eqb_refl.
    + rewrite PP. unfold written. destruct (mget q PG); [|reflexivity]. destruct (find_page q ws); [reflexivity|]. cbn.
      destruct (key_eqb_spec k q); [congruence|reflexivity].
Qed.

(* the recursion only appends *)
Lemma write_page_grows od k w w' r : at_end (b_out (w_base w)) -> write_page od k w = (w', r) -> grows w w'.
Proof.
  intros A H. unfold write_page in H. destruct (mget k (w_pages w)) as [P|]; [|injection H as <- _; now apply grows_refl]. revert H. cbv zeta.
  assert (E : w_base w = outb (file w) (w_base w)).
  { unfold file, outb. destruct (w_base w) as [o]. cbn in *. destruct o. destruct A as (A1 & A2 & A3). cbn in *. subst. reflexivity. }
  rewrite E, seek_outb, emit_outb. destruct (INT32_MAX <? _); intros H; pose proof (f_equal fst H) as Hw; cbn [fst] in Hw; clear H; subst w'.
  - split; [now repeat split|]. eexists. reflexivity.
  - destruct (key_eqb k root_key); cbn [w_cfg w_base with_cfg w_pages w_loaded with_base]; rewrite emit_outb; (split; [now repeat split|]);
      unfold file at 1; cbn [w_base with_base outb with_out b_out o_data]; eexists; rewrite <- app_assoc; reflexivity.
Qed.
Lemma each_grows {X} (f : X -> writer -> writer * outcome unit) l :
  (forall a w w' r, at_end (b_out (w_base w)) -> f a w = (w', r) -> grows w w') ->
  forall w w' r, at_end (b_out (w_base w)) -> each f l w = (w', r) -> grows w w'.
Proof.
  intros Hf. induction l as [|a l IH]; intros w w' r A H; cbn [each] in H.
  - injection H as <- _. now apply grows_refl.
  - destruct (f a w) as (w1, r1) eqn:E. pose proof (Hf _ _ _ _ A E) as G. destruct r1 as [[]| |]; cbn [then_] in H; [|injection H as <- _; exact G..].
    eapply grows_trans; [exact G|]. eapply IH; eauto. apply G.
Qed.
Lemma tree_grows od : forall f k w w' r, at_end (b_out (w_base w)) -> write_page_tree f od k w = (w', r) -> grows w w'.
Proof.
  induction f as [|f IH]; intros k w w' r A H; cbn [write_page_tree] in H; [injection H as <- _; now apply grows_refl|].
  destruct (mget k (w_pages w)) as [P|]; [|injection H as <- _; now apply grows_refl].
  destruct (each _ _ w) as (w1, r1) eqn:E. pose proof (each_grows _ _ IH _ _ _ A E) as G.
  destruct r1 as [[]| |]; cbn [then_] in H; [|injection H as <- _; exact G..].
  eapply grows_trans; [exact G|]. eapply write_page_grows; eauto. apply G.
Qed.

Section Tree.
Variables (od : orders) (PG : kmap wpage) (D : Z) (w0 : writer).
Hypothesis (RN : forall k l, Permutation (od_nodes od k l) l) (RO : forall k l, Permutation (od_subs od k l) l) (T : tree PG)
  (DM : forall k, In k (map fst PG) -> kd k <= D).
Definition oversize : Prop := exists x P, mget x PG = Some P /\ INT32_MAX < 32 * (Z.of_nat (length (wp_nodes P)) + Z.of_nat (length (wp_subs P))).

Lemma pinv_at_end ws w : pinv od PG w0 ws w -> at_end (b_out (w_base w)).
Proof. intros I. rewrite (pv_base _ _ _ _ _ I). now repeat split. Qed.

Lemma write_tree_spec : forall f k w w' r ws, pinv od PG w0 ws w -> In k (map fst PG) -> D - kd k < Z.of_nat f ->
  (forall x, reach PG k x -> find_page x ws = None) ->
  write_page_tree f od k w = (w', r) -> Z.of_nat (length (file w')) < 2 ^ 64 ->
  (r = Throw /\ oversize) \/ (r = Ok tt /\ exists ws', map pi_key ws' = post od PG f k /\ pinv od PG w0 (ws ++ ws') w').
Proof.
  induction f as [|f IH]; intros k w w' r ws I K F FR H LEN; [specialize (DM k K); lia|]. cbn [write_page_tree] in H.
  rewrite (pv_pages _ _ _ _ _ I) in H. unfold written in H.
  destruct (proj2 (mget_some_in k PG) K) as (P & EP). rewrite EP, (FR k (reach_refl _ _)) in H.
  assert (SO : subs_of PG k = wp_subs P) by (unfold subs_of; now rewrite EP). rewrite <- SO in *.
  destruct (each (write_page_tree f od) (od_subs od k (subs_of PG k)) w) as (w1, r1) eqn:E.
  assert (LOOP : forall l ws w w1 r1, NoDup l -> (forall s, In s l -> In s (subs_of PG k)) -> pinv od PG w0 ws w ->
    (forall s x, In s l -> reach PG s x -> find_page x ws = None) -> each (write_page_tree f od) l w = (w1, r1) ->
    Z.of_nat (length (file w1)) < 2 ^ 64 ->
    (r1 = Throw /\ oversize) \/ (r1 = Ok tt /\ exists ws', map pi_key ws' = flat_map (post od PG f) l /\ pinv od PG w0 (ws ++ ws') w1)).
  { clear I FR E H LEN w w' r w1 r1 ws. induction l as [|s l IHl]; intros ws w w1 r1 ND IL I FR E LEN; cbn [each] in E.
    - injection E as <- <-. right. split; [reflexivity|]. exists []. rewrite app_nil_r. now split.
    - inversion ND as [|? ? N1 N2]; subst. pose proof (sub_depth _ _ _ T (IL s (or_introl eq_refl))) as (DD & _ & SP & _).
      destruct (write_page_tree f od s w) as (w2, r2) eqn:E2.
      pose proof (tree_grows _ _ _ _ _ _ (pinv_at_end _ _ I) E2) as G2.
      assert (L2 : Z.of_nat (length (file w2)) < 2 ^ 64).
      { destruct r2 as [[]| |]; cbn [then_] in E; [|injection E as <- _; exact LEN..].
        pose proof (grows_le _ _ (each_grows _ _ (tree_grows od f) _ _ _ (proj1 G2) E)). lia. }
      destruct (IH s w w2 r2 ws I SP ltac:(lia) (fun x => FR s x (or_introl eq_refl)) E2 L2) as [(-> & O)|(-> & ws1 & M1 & I1)]; cbn [then_] in E.
      { injection E as <- <-. left. now split. }
      destruct (IHl (ws ++ ws1) w2 w1 r1 N2 (fun y Hy => IL y (or_intror Hy)) I1) as [O|(-> & ws2 & M2 & I2)]; [|exact E|exact LEN|now left|].
      { intros s' x S' R'. rewrite find_page_app, (FR s' x (or_intror S') R'). apply find_page_none. rewrite M1. intros X.
        apply (post_in od PG D RO T DM) in X; [|exact SP|lia].
        assert (s = s') by (eapply siblings_disjoint; [exact T|apply IL; now left|apply IL; right; exact S'|exact X|exact R']). now subst s'. }
      right. split; [reflexivity|]. exists (ws1 ++ ws2). rewrite map_app, M1, M2, app_assoc. cbn [flat_map]. now split. }
  assert (ND : NoDup (od_subs od k (subs_of PG k))) by (apply (Permutation_NoDup (Permutation_sym (RO _ _))), T).
  assert (IL : forall s, In s (od_subs od k (subs_of PG k)) -> In s (subs_of PG k)) by (intros s; apply Permutation_in, RO).
  pose proof (each_grows _ _ (tree_grows od f) _ _ _ (pinv_at_end _ _ I) E) as G1.
  assert (L1 : Z.of_nat (length (file w1)) < 2 ^ 64).
  { destruct r1 as [[]| |]; cbn [then_] in H; [|injection H as <- _; exact LEN..]. pose proof (grows_le _ _ (write_page_grows _ _ _ _ _ (proj1 G1) H)). lia. }
  destruct (LOOP _ ws w w1 r1 ND IL I (fun s x S R => FR x (reach_head _ _ _ _ (IL s S) R)) E L1) as [(-> & O)|(-> & ws1 & M1 & I1)]; cbn [then_] in H.
  { injection H as <- <-. left. now split. }
  assert (FK : find_page k (ws ++ ws1) = None).
  { rewrite find_page_app, (FR k (reach_refl _ _)). apply find_page_none. rewrite M1. intros X. apply in_flat_map in X as (s & S & X). apply IL in S.
    pose proof (sub_depth _ _ _ T S) as (DD & _ & SP & _). apply (post_in od PG D RO T DM) in X; [|exact SP|lia]. apply (reach_depth _ _ _ T) in X. lia. }
  destruct (write_page_spec od PG w0 (ws ++ ws1) w1 k P w' r RN RO I1 EP FK) as [(-> & O)|(-> & i & EI & I2)]; [|exact H|exact LEN| |].
  - intros s S. rewrite <- SO in S. pose proof (sub_depth _ _ _ T S) as (DD & _ & SP & _). split; [|now apply mget_some_in].
    intros X. apply find_page_none in X. apply X. rewrite map_app, in_app_iff. right. rewrite M1. apply in_flat_map. exists s.
    split; [apply (Permutation_in _ (Permutation_sym (RO _ _))), S|]. apply (post_in od PG D RO T DM); [exact SP|lia|constructor].
  - left. split; [reflexivity|]. exists k, P. now split.
  - right. split; [reflexivity|]. exists (ws1 ++ [i]). rewrite app_assoc. split; [|exact I2]. rewrite map_app, M1. cbn [map post]. now rewrite EI.
Qed.
End Tree.
