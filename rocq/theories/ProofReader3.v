(* ProofReader3.v - every query keeps the hierarchy consistent; loading whole subtrees *)
From Coq Require Import Permutation.
From Verif Require Import Base BaseFacts ModelFloat ModelKey ModelGeom ModelEntry ModelPoint ModelPoints ModelHeader ModelVlr ModelExtents ModelConfig
  ModelStream ModelWriter ModelReader SpecKey SpecPoint SpecWriter SpecHier SpecReader ProofKey ProofPoint ProofStream ProofTree ProofPages ProofHier
  ProofReader ProofReader2.

(* a stored hierarchy is a page tree without damaged pages *)
Lemma all_intact f off size hs : stored_hierarchy f off size hs -> forall i, In i hs -> intact i = true.
Proof. intros S i I. unfold intact. apply forallb_forall. intros e E. now destruct (sh_entry _ _ _ _ S i e I E) as (_ & H & _). Qed.
Lemma filter_all {A} (p : A -> bool) l : (forall a, In a l -> p a = true) -> filter p l = l.
Proof. induction l as [|a l IH]; intros H; [reflexivity|]. cbn [filter]. rewrite H by (now left). f_equal. apply IH. intros b B. apply H. now right. Qed.
Lemma hierarchy_tree f off size hs : stored_hierarchy f off size hs -> page_tree f off size hs.
Proof.
  intros S. pose proof (all_intact _ _ _ _ S) as AI. constructor.
  - exact (sh_keys _ _ _ _ S).
  - exact (sh_root _ _ _ _ S).
  - exact (sh_page _ _ _ _ S).
  - intros i e I E. now destruct (sh_entry _ _ _ _ S i e I E).
  - intros i e I _ E. now destruct (sh_entry _ _ _ _ S i e I E) as (_ & _ & H).
  - rewrite filter_all by exact AI. exact (sh_nodes _ _ _ _ S).
  - rewrite filter_all by exact AI. exact (sh_subs _ _ _ _ S).
  - intros i e I _ E X. exact (sh_sub _ _ _ _ S i e I E X).
  - intros j J N. destruct (sh_up _ _ _ _ S j J N) as (e & E & K). unfold sub_entries, all_entries in E. apply filter_In in E. destruct E as (E & X).
    apply in_flat_map in E. destruct E as (i & I & E). exists i, e. repeat split; auto.
Qed.

(* ---- what every query preserves: an invariant of reading one page and of the stream's flags ---- *)
Section Kept.
Variable Inv : reader -> Prop.
Variable Rel : reader -> reader -> Prop.
Hypothesis rel_refl : forall r, Rel r r.
Hypothesis rel_trans : forall a b c, Rel a b -> Rel b c -> Rel a c.
Hypothesis inv_fail : forall b r, Inv r -> Inv (with_fail b r).
Hypothesis rel_fail : forall b r, Rel r (with_fail b r).
Hypothesis inv_parse : forall r i p r' o, Inv r -> nth_error (r_pages r) i = Some p -> rp_loaded p = false -> read_and_parse i r = (r', o) -> Inv r' /\ Rel r r'.
Definition kept {A} (r : reader) (c : call A) : Prop := forall r' o, c = Some (r', o) -> Inv r' /\ Rel r r'.
Lemma kept_some {A} r r' (o : outcome A) : Inv r' -> Rel r r' -> kept r (Some (r', o)).
Proof. intros A1 A2 r1 o1 E. injection E as <- <-. auto. Qed.
Lemma kept_none {A} r : kept r (@None (reader * outcome A)).
Proof. intros ? ? E. discriminate. Qed.
Lemma kept_then {A B} r (x : call A) (g : A -> reader -> call B) : kept r x -> (forall a r', Inv r' -> kept r' (g a r')) -> kept r (and_then x g).
Proof.
  intros X G r' o E. destruct x as [[r1 [a| |]]|]; cbn [and_then] in E; try discriminate.
  - destruct (X _ _ eq_refl) as (X1 & X2). destruct (G a r1 X1 _ _ E) as (Y1 & Y2). split; [exact Y1|eapply rel_trans; eauto].
  - injection E as <- <-. exact (X _ _ eq_refl).
  - injection E as <- <-. exact (X _ _ eq_refl).
Qed.
Lemma kept_forget {A} r (x : call A) : kept r x -> kept r (forget x).
Proof. intros X r' o E. destruct x as [[r1 [a| |]]|]; try discriminate; injection E as <- <-; exact (X _ _ eq_refl). Qed.

Lemma kept_find k : forall fuel r, Inv r -> kept r (find_node fuel k r).
Proof.
  induction fuel as [|fuel IH]; intros r R; cbn [find_node]; [apply kept_none|]. destruct (mget k (r_nodes r)); [apply kept_some; auto using rel_refl|].
  destruct (nearest_seen _ _) as [i|]; [|apply kept_some; auto using rel_refl]. destruct (nth_error (r_pages r) i) as [p|] eqn:P; [|apply kept_some; auto using rel_refl].
  destruct (rp_loaded p) eqn:L; [apply kept_some; auto using rel_refl|]. apply kept_then; [|intros _ r' R'; now apply IH].
  destruct (read_and_parse i r) as (r1, o) eqn:E. destruct (inv_parse r i p r1 o R P L E) as (A & B). apply kept_some; auto.
Qed.
Lemma kept_each {A B} (g : A -> reader -> call (list B)) : (forall a r, Inv r -> kept r (g a r)) -> forall l r, Inv r -> kept r (each_call g l r).
Proof.
  intros G. induction l as [|a l IH]; intros r R; cbn [each_call]; [apply kept_some; auto using rel_refl|].
  apply kept_then; [now apply G|]. intros x r1 R1. apply kept_then; [now apply IH|]. intros y r2 R2. apply kept_some; auto using rel_refl.
Qed.
Lemma kept_load od : forall fuel i r, Inv r -> kept r (load_pages fuel od i r).
Proof.
  induction fuel as [|fuel IH]; intros i r R; cbn [load_pages]; [apply kept_none|]. destruct (nth_error (r_pages r) i) as [p|] eqn:P; [|apply kept_some; auto using rel_refl].
  destruct (rpage_valid p); cbn [negb]; [|apply kept_some; auto using rel_refl]. apply kept_then.
  - destruct (rp_loaded p) eqn:L; [apply kept_some; auto using rel_refl|]. destruct (read_and_parse i r) as (r1, o) eqn:E. destruct (inv_parse r i p r1 o R P L E) as (A & B). apply kept_some; auto.
  - intros _ r1 R1. destruct (nth_error (r_pages r1) i); [|apply kept_some; auto using rel_refl]. apply kept_then; [now apply kept_each|]. intros l r2 R2. apply kept_some; auto using rel_refl.
Qed.
Lemma kept_children od fuel k r : Inv r -> kept r (get_all_children_of_page fuel od k r).
Proof.
  intros R. unfold get_all_children_of_page. destruct (key_valid k); cbn [negb]; [|apply kept_some; auto using rel_refl]. apply kept_then; [now apply kept_find|].
  intros n r1 R1. destruct (mget k (r_seen r1)); [now apply kept_load|apply kept_some; auto using rel_refl].
Qed.
Lemma kept_all od fuel r : Inv r -> kept r (get_all_nodes fuel od r).
Proof. apply kept_children. Qed.
Lemma kept_pages od fuel r : Inv r -> kept r (get_page_list fuel od r).
Proof.
  intros R. unfold get_page_list. apply kept_then; [now apply kept_all|]. intros _ r1 R1. destruct (_ : outcome (list key)); apply kept_some; auto using rel_refl.
Qed.
Lemma kept_depth od fuel res r : Inv r -> kept r (get_depth_at_resolution fuel od res r).
Proof. intros R. apply kept_then; [now apply kept_all|]. intros l r1 R1. apply kept_some; auto using rel_refl. Qed.
Lemma kept_select c od fuel res r : Inv r -> kept r (select_nodes c fuel od res r).
Proof.
  intros R. apply kept_then; [now apply kept_depth|]. intros d r1 R1. apply kept_then; [now apply kept_all|]. intros l r2 R2. apply kept_some; auto using rel_refl.
Qed.
(* data queries only touch the stream's flags *)
Definition flags_only (r r' : reader) : Prop := exists b, r' = with_fail b r.
Lemma flags_refl r : flags_only r r.
Proof. exists (r_fail r). now destruct r. Qed.
Lemma flags_trans a b c : flags_only a b -> flags_only b c -> flags_only a c.
Proof. intros (x & ->) (y & ->). exists y. reflexivity. Qed.
Lemma flags_fail b r : flags_only r (with_fail b r).
Proof. now exists b. Qed.
Lemma flags_seek o r : flags_only r (seek o r).
Proof. unfold seek. destruct (r_fail r); [apply flags_refl|]. now eexists. Qed.
Lemma flags_kept {A} r (x : reader * outcome A) : Inv r -> flags_only r (fst x) -> kept r (Some x).
Proof. intros R (b & E). destruct x as (r', o). cbn in E. subst r'. apply kept_some; [now apply inv_fail|apply rel_fail]. Qed.
Lemma flags_decompress cd fmt eb count o r : flags_only r (fst (decompress_node cd fmt eb count o r)).
Proof.
  unfold decompress_node. destruct (base_size fmt) as [z| |]; try apply flags_refl. destruct (count <=? 0); [apply flags_fail|]. destruct (255 <? z + eb); [apply flags_refl|].
  destruct (r_fail r); [apply flags_refl|]. destruct (cd_decomp _ _ _ _ _); apply flags_fail.
Qed.
Lemma flags_data cd n r : flags_only r (fst (get_point_data_node cd n r)).
Proof.
  unfold get_point_data_node. destruct (node_valid n); cbn [negb]; [|apply flags_refl]. destruct (h_eb_size _); try apply flags_seek.
  eapply flags_trans; [apply flags_seek|apply flags_decompress].
Qed.
Lemma flags_compressed n r : flags_only r (fst (get_compressed_node n r)).
Proof. unfold get_compressed_node. destruct (node_valid n); cbn [negb]; [|apply flags_refl]. cbn [fst]. eapply flags_trans; [apply flags_seek|apply flags_fail]. Qed.
Lemma flags_points cd hp n r : flags_only r (fst (get_points_node cd hp n r)).
Proof. unfold get_points_node. pose proof (flags_data cd n r) as H. destruct (get_point_data_node cd n r) as (r1, [d| |]); exact H. Qed.
Lemma flags_add_from g : (forall n hp out r, flags_only r (fst (g n hp out r))) -> forall l hp out r, flags_only r (fst (add_from g l hp out r)).
Proof.
  intros G. induction l as [|n l IH]; intros hp out r; cbn [add_from]; [apply flags_refl|]. pose proof (G n hp out r) as H.
  destruct (g n hp out r) as (r1, [(hp1, out1)| |]); try exact H. eapply flags_trans; [exact H|apply IH].
Qed.
Lemma flags_add_all cd n hp out r : flags_only r (fst (add_all_of cd n hp out r)).
Proof. unfold add_all_of. pose proof (flags_points cd hp n r) as H. destruct (get_points_node cd hp n r) as (r1, [(a, b)| |]); exact H. Qed.
Lemma flags_add_some cd b n hp out r : flags_only r (fst (add_some_of cd b n hp out r)).
Proof. unfold add_some_of. pose proof (flags_points cd hp n r) as H. destruct (get_points_node cd hp n r) as (r1, [(a, c)| |]); exact H. Qed.
Lemma flags_validate cd v : forall l t1 t2 b r, flags_only r (fst (validate_nodes cd v l t1 t2 b r)).
Proof.
  induction l as [|n l IH]; intros t1 t2 b r; cbn [validate_nodes]; [apply flags_refl|]. destruct (header_bounds _ _) as [hb| |]; try apply flags_refl.
  destruct (box_intersects _ _); cbn [negb].
  - pose proof (flags_points cd [] n r) as H. destruct (get_points_node cd [] n r) as (r1, [(hp, c)| |]); try exact H.
    destruct (_ : outcome (option (Z * Z * bool))) as [[((a1, a2), a3)|]| |]; try exact H. eapply flags_trans; [exact H|apply IH].
  - destruct v; cbn [negb]; [|apply flags_refl]. destruct (add_int _ _); try apply flags_refl. apply IH.
Qed.
Lemma kept_by_key g fuel k r : (forall n r, flags_only r (fst (g n r))) -> Inv r -> kept r (by_key g fuel k r).
Proof.
  intros G R. unfold by_key. destruct (key_valid k); cbn [negb]; [|apply kept_some; auto using rel_refl]. apply kept_then; [now apply kept_find|]. intros n r1 R1.
  destruct (node_valid n); cbn [negb]; [|apply kept_some; auto using rel_refl]. now apply flags_kept.
Qed.
Lemma kept_ask cd od fuel q r : Inv r -> kept r (ask cd od fuel q r).
Proof.
  intros R. destruct q; cbn [ask]; apply kept_forget.
  - now apply kept_find.
  - unfold get_points. apply kept_then; [apply kept_by_key; auto using flags_data|]. intros d r1 R1. destruct d; apply kept_some; auto using rel_refl.
  - apply flags_kept; auto using flags_points.
  - apply kept_by_key; auto using flags_data.
  - apply flags_kept; auto using flags_data.
  - apply kept_by_key; auto using flags_compressed.
  - apply flags_kept; auto using flags_compressed.
  - now apply kept_children.
  - now apply kept_all.
  - now apply kept_pages.
  - unfold get_all_points. destruct (empty_points _); try (apply kept_some; auto using rel_refl). apply kept_then; [now apply kept_depth|]. intros d r1 R1.
    apply kept_then; [now apply kept_all|]. intros l r2 R2. apply flags_kept; auto. apply flags_add_from. intros n hp out r3. destruct (_ <=? _); [apply flags_add_all|apply flags_refl].
  - now apply kept_depth.
  - now apply kept_select.
  - now apply kept_select.
  - now apply kept_select.
  - now apply kept_select.
  - unfold get_points_within_box. apply kept_then; [now apply kept_depth|]. intros d r1 R1. destruct (empty_points _); try (apply kept_some; auto using rel_refl).
    apply kept_then; [now apply kept_all|]. intros l r2 R2. apply flags_kept; auto. apply flags_add_from. intros n hp out r3.
    destruct (_ <=? _); [|apply flags_refl]. destruct (key_within _ _ _ _); [apply flags_add_all|]. destruct (key_intersects _ _ _ _); [apply flags_add_some|apply flags_refl].
  - unfold validate_spatial_bounds. apply kept_then; [now apply kept_all|]. intros l r2 R2. apply flags_kept; auto using flags_validate.
Qed.
Lemma kept_asks cd od fuel : forall qs r r', Inv r -> ask_all cd od fuel qs r = Some r' -> Inv r' /\ Rel r r'.
Proof.
  induction qs as [|q qs IH]; intros r r' R E; cbn [ask_all] in E; [injection E as <-; auto using rel_refl|].
  destruct (ask cd od fuel q r) as [(r1, o)|] eqn:A; [|discriminate]. destruct (kept_ask cd od fuel q r R _ _ A) as (R1 & G1).
  destruct o; try discriminate; destruct (IH _ _ R1 E) as (R2 & G2); (split; [exact R2|eapply rel_trans; eauto]).
Qed.
End Kept.

Section Tree.
Variable f : bytes.
Variables off size : Z.
Variable hs : list page_info.
Hypothesis T : page_tree f off size hs.
Hypothesis FL : Z.of_nat (length f) < 2 ^ 63.
Notation rinv := (rinv f hs).

Lemma rinv_fail b r : rinv r -> rinv (with_fail b r).
Proof. intros [A B C D E F G]. constructor; auto. Qed.
Lemma grows_fail b r : grows r (with_fail b r).
Proof. repeat split; auto. intros i p P. exists p. auto. Qed.
Lemma fresh_rinv r : fresh_reader f off size r -> rinv r.
Proof.
  intros (A & B & C & D & E). constructor.
  - exact A.
  - intros i p P. rewrite C in P. destruct i as [|[|i]]; try discriminate. injection P as <-. cbn [rp_key new_rpage]. rewrite D. split; [reflexivity|].
    destruct (pt_root _ _ _ _ T) as (h & H1 & H2 & H3 & H4). exists h. cbn [rp_off rp_size rp_loaded new_rpage rp_subs rp_nodes]. repeat split; auto.
  - intros k i. rewrite D. cbn [mget]. destruct (key_eqb_spec root_key k) as [<-|]; [|discriminate]. intros X. injection X as <-. rewrite C. eexists. split; reflexivity.
  - rewrite D. repeat constructor. intros [].
  - exists 0%nat. rewrite D. reflexivity.
  - intros k n. rewrite E. split; [discriminate|]. intros (i & p & h & e & P & L & _). rewrite C in P. destruct i as [|[|i]]; try discriminate. injection P as <-. discriminate.
  - intros i p P N. rewrite C in P. destruct i as [|[|i]]; try discriminate. injection P as <-. exfalso. now apply N.
Qed.

(* ---- preservation, whatever the state of the stream ---- *)
Lemma parse_any r i p r' o : rinv r -> nth_error (r_pages r) i = Some p -> rp_loaded p = false -> read_and_parse i r = (r', o) -> rinv r' /\ grows r r' /\ o <> UB.
Proof.
  intros R P L E. destruct (ri_page _ _ _ R i p P) as (_ & h & H1 & H2 & H3 & H4 & _). destruct (r_fail r) eqn:F.
  - destruct (pt_page _ _ _ _ T h H1) as (B1 & B2 & B3 & B4 & B5).
    assert (V : rpage_valid p = true).
    { unfold rpage_valid. rewrite L, <- H2, <- H3, <- H4. cbn [orb]. apply andb_true_intro. split; [apply andb_true_intro; split; apply Z.leb_le; lia|].
      apply key_valid_spec, (page_valid_key f off size hs T), H1. }
    assert (SK : seek (rp_off p) r = r) by (unfold seek; now rewrite F). assert (RA : rest_at (rp_off p) r = []) by (unfold rest_at; now rewrite F).
    assert (LN : Z.to_nat (rp_size p / 32) = length (pi_ents h)) by (rewrite <- H4, B2, Z.mul_comm, Z.div_mul by lia; lia).
    destruct (pi_ents h) as [|e es] eqn:EN.
    + (* an empty page *)
      set (r0 := with_fail false r).
      assert (X : read_and_parse i r = (with_fail true (fst (read_and_parse i r0)), snd (read_and_parse i r0))).
      { assert (RP : r_pages r0 = r_pages r) by reflexivity.
        unfold read_and_parse, read_page. rewrite !RP, P, V. cbn [negb]. rewrite SK, RA, LN. cbn [length read_entries].
        assert (SK' : seek (rp_off p) r0 = r0).
        { apply (seek_good f FL); [exact (ri_data _ _ _ R)|reflexivity|]. rewrite <- H3. lia. }
        rewrite SK'. unfold r0. destruct r; cbn in *. subst. reflexivity. }
      assert (P0 : nth_error (r_pages r0) i = Some p) by exact P.
      assert (I0 : intact h = true) by (unfold intact; rewrite EN; reflexivity).
      destruct (parse_spec f off size hs T FL r0 i p h (rinv_fail _ _ R) eq_refl P0 L H1 H2) as [(Y & _)|(_ & r1 & PE & R1 & _ & G1 & _)]; [congruence|].
      rewrite PE in X. cbn [fst snd] in X. rewrite E in X. injection X as -> ->. split; [now apply rinv_fail|]. split; [|discriminate].
      eapply grows_trans; [apply (grows_fail false)|]. eapply grows_trans; [exact G1|apply grows_fail].
    + unfold read_and_parse, read_page in E. rewrite P, V in E. cbn [negb] in E. rewrite SK, RA, LN in E. cbn in E.
      injection E as <- <-. split; [now apply rinv_fail|]. split; [apply grows_fail|discriminate].
  - destruct (parse_spec f off size hs T FL r i p h R F P L H1 H2) as [(I & PE)|(I & r1 & PE & R1 & F1 & G1 & LD)]; rewrite PE in E; injection E as <- <-.
    + split; [exact R|]. split; [apply grows_refl|discriminate].
    + split; [exact R1|]. split; [exact G1|discriminate].
Qed.

Lemma parse_keeps r i p r' o : rinv r -> nth_error (r_pages r) i = Some p -> rp_loaded p = false -> read_and_parse i r = (r', o) -> rinv r' /\ grows r r'.
Proof. intros R P L E. destruct (parse_any r i p r' o R P L E) as (A & B & _). auto. Qed.
Lemma used_rinv cd od r0 r : fresh_reader f off size r0 -> reader_after cd od r0 r -> rinv r /\ grows r0 r.
Proof. intros F (fuel & qs & E). refine (kept_asks rinv grows grows_refl grows_trans rinv_fail grows_fail parse_keeps cd od fuel qs r0 r (fresh_rinv r0 F) E). Qed.
End Tree.
