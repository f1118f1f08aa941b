(* ProofTrace.v - the listed stream operations are those of the writers *)
From Verif Require Import Base BaseFacts ModelFloat ModelKey ModelGeom ModelEntry ModelPoint ModelPoints ModelHeader ModelVlr ModelExtents ModelConfig
  ModelStream ModelWriter ModelTrace ProofStream.
Open Scope Z_scope.

Lemma play_app a b s : play (a ++ b) s = play b (play a s).
Proof. revert s. induction a as [|o a IH]; intros s; [reflexivity|]. cbn [app play]. apply IH. Qed.
Lemma put_nil s : put [] s = s.
Proof.
  unfold put. destruct (o_bad s) eqn:B; [reflexivity|].
  assert (SP : splice (o_pos s) [] (o_data s) = o_data s) by (unfold splice; cbn [app length]; rewrite Nat.add_0_r; apply firstn_skipn).
  destruct s as [d p bad cap]. cbn [o_data o_pos o_bad o_cap] in *. subst bad. destruct cap as [c|]; [rewrite firstn_nil|]; cbv zeta; rewrite SP; cbn [length]; rewrite Nat.add_0_r; reflexivity.
Qed.
Lemma play_puts {A} (g : A -> bytes) l s : play (map (fun x => SPut (g x)) l) s = put (flat_map g l) s.
Proof.
  revert s. induction l as [|x l IH]; intros s; cbn [map play flat_map do_sop]; [now rewrite put_nil|]. rewrite IH, <- put_app. reflexivity.
Qed.

Lemma play_chunk cd h data count comp b : play (t_write_chunk cd h data count comp b) (b_out b) = b_out (fst (write_chunk cd h data count comp b)).
Proof.
  unfold t_write_chunk, write_chunk. destruct (tell64 (b_out b) <=? 0); [reflexivity|]. destruct (if comp then _ else _) as [(x, n)| |]; [|reflexivity..].
  cbn [play do_sop]. destruct (tell64 (put x (b_out b)) <=? 0); [reflexivity|]. destruct (INT32_MAX <? _); reflexivity.
Qed.
Lemma play_table cd poff b : play (t_chunk_table cd poff b) (b_out b) = b_out (fst (write_chunk_table cd poff b)).
Proof.
  unfold t_chunk_table, write_chunk_table. cbn [with_out b_out b_chunks]. rewrite play_app. cbn [play do_sop]. destruct (UINT32_MAX <? _); [reflexivity|].
  cbn [play do_sop]. unfold emit. cbn [with_out b_out fst]. rewrite put_app. reflexivity.
Qed.
Lemma play_wkt wkt b : play (t_wkt wkt) (b_out b) = b_out (write_wkt wkt b).
Proof. unfold t_wkt, write_wkt. destruct wkt as [|x wkt]; [reflexivity|]. cbn [play do_sop]. unfold emit. cbn [with_out b_out]. now rewrite <- put_app. Qed.
Lemma play_las_header h poff ext b : play (t_las_header h poff ext b) (b_out b) = b_out (fst (write_las_header h poff ext b)).
Proof. unfold t_las_header, write_las_header. destruct (let! eb := _ in _) as [l| |]; reflexivity. Qed.
Lemma play_base_header h ebs b : play (t_base_header h ebs b) (b_out b) = b_out (fst (base_write_header h ebs b)).
Proof.
  unfold t_base_header, base_write_header. destruct (base_offset h ebs) as [poff| |]; destruct (h_eb_size h) as [eb| |]; try reflexivity.
  rewrite play_app, play_las_header. destruct (write_las_header h poff false b) as (b1, [u| |]); cbn [fst then_]; [|reflexivity..].
  cbn [play do_sop]. unfold emit. cbn [with_out b_out]. destruct (poff <? _); reflexivity.
Qed.
Lemma play_base_close cd z b : play (t_base_body cd z b ++ t_base_tail cd z b) (b_out b) = b_out (fst (base_close cd z b)).
Proof.
  rewrite play_app. unfold t_base_body, t_base_tail, base_before_header, base_close. destruct (negb (b_open b)); [reflexivity|]. destruct (base_offset (z_hdr z) (z_ebs z)) as [poff| |]; [|reflexivity..].
  rewrite play_app, play_table. destruct (write_chunk_table cd poff b) as (b1, [u| |]); cbn [fst then_]; [|reflexivity..].
  cbn [play do_sop with_out b_out b_open b_chunks b_points b_evcnt]. set (b2 := mkBW (seek_end (b_out b1)) _ _ _ _ _). change (seek_end (b_out b1)) with (b_out b2) at 1. rewrite play_wkt, play_base_header.
  destruct (base_write_header _ _ _) as (b3, [v| |]); reflexivity.
Qed.

Lemma play_do_add cd k data n comp page w : play (t_do_add_node cd k data n comp page w) (b_out (w_base w)) = b_out (w_base (fst (do_add_node cd k data n comp page w))).
Proof.
  unfold t_do_add_node, do_add_node. destruct (_ || _); [reflexivity|]. destruct (negb _); [reflexivity|]. rewrite play_chunk.
  destruct (write_chunk _ _ _ _ _ _) as (b, [((o, z), m)| |]); reflexivity.
Qed.
Lemma play_add cd k data page w : play (t_add_node cd k data page w) (b_out (w_base w)) = b_out (w_base (fst (add_node cd k data page w))).
Proof.
  unfold t_add_node, add_node. destruct data as [|x data]; [reflexivity|]. destruct (_ =? 0); [reflexivity|]. destruct (negb _); [reflexivity|]. apply play_do_add.
Qed.
Lemma some_node_fst x : fst (some_node x) = fst x.
Proof. destruct x as (w, [n| |]); reflexivity. Qed.
Lemma move_base k page w : w_base (fst (change_node_page k page w)) = w_base w.
Proof.
  unfold change_node_page. destruct (negb _); [reflexivity|]. destruct (negb _); [reflexivity|]. destruct (mget k (w_loaded w)) as [nd|]; [|reflexivity].
  destruct (negb _); [reflexivity|]. destruct (key_eqb _ _); [reflexivity|]. destruct (mget (n_page nd) _); reflexivity.
Qed.
Lemma play_step cd op w : play (t_step cd op w) (b_out (w_base w)) = b_out (w_base (fst (wstep cd op w))).
Proof.
  destruct op as [k data page|k hp c page|k data n page|k page|h|i|slot e]; cbn [t_step wstep].
  - rewrite some_node_fst. apply play_add.
  - rewrite some_node_fst. unfold add_node_points. destruct (c_pts c); [reflexivity|]. destruct (_ || _); [reflexivity|]. destruct (points_pack _ _ _ _); [|reflexivity..]. apply play_add.
  - rewrite some_node_fst. unfold add_node_compressed. destruct (n =? 0); [reflexivity|]. apply play_do_add.
  - pose proof (move_base k page w) as M. destruct (change_node_page k page w) as (w1, [u| |]); cbn [play fst] in *; now rewrite M.
  - destruct (edit_header _ _); reflexivity.
  - reflexivity.
  - destruct (ModelExtents.set_nth _ _ _); reflexivity.
Qed.
Lemma play_run cd ops : forall w, play (t_run cd ops w) (b_out (w_base w)) = b_out (w_base (fst (wrun cd ops w))).
Proof.
  induction ops as [|op ops IH]; intros w; [reflexivity|]. cbn [t_run wrun]. rewrite play_app, play_step. destruct (wstep cd op w) as (w1, [r| |]); cbn [fst].
  - rewrite IH. destruct (wrun cd ops w1); reflexivity.
  - rewrite IH. destruct (wrun cd ops w1); reflexivity.
  - reflexivity.
Qed.

Lemma play_page od k w : play (t_write_page od k w) (b_out (w_base w)) = b_out (w_base (fst (write_page od k w))).
Proof.
  unfold t_write_page, write_page. destruct (mget k (w_pages w)) as [p|]; [|reflexivity]. cbv zeta. set (size := 32 * _ + _). rewrite play_app. cbn [play do_sop]. unfold emit. cbn [with_out b_out].
  destruct (INT32_MAX <? size); [reflexivity|]. rewrite play_app, !play_puts, <- put_app. destruct (key_eqb k root_key); reflexivity.
Qed.
Lemma play_each {A} (f : A -> writer -> writer * outcome unit) t : (forall a w, play (t a w) (b_out (w_base w)) = b_out (w_base (fst (f a w)))) ->
  forall l w, play (t_each f t l w) (b_out (w_base w)) = b_out (w_base (fst (each f l w))).
Proof.
  intros H. induction l as [|a l IH]; intros w; [reflexivity|]. cbn [t_each each]. rewrite play_app, H. destruct (f a w) as (w1, [u| |]); cbn [fst then_]; [apply IH|reflexivity..].
Qed.
Lemma play_tree od fuel : forall k w, play (t_page_tree fuel od k w) (b_out (w_base w)) = b_out (w_base (fst (write_page_tree fuel od k w))).
Proof.
  induction fuel as [|fuel IH]; intros k w; [reflexivity|]. cbn [t_page_tree write_page_tree]. destruct (mget k (w_pages w)) as [p|]; [|reflexivity].
  rewrite play_app, (play_each _ _ IH). destruct (each _ _ w) as (w1, [u| |]); cbn [fst then_]; [apply play_page|reflexivity..].
Qed.
(* ways for the extents VLR to fail *)
Lemma new_extent2_cases a b : (exists e, new_extent2 a b = Ok e) \/ new_extent2 a b = Throw.
Proof. unfold new_extent2, new_extent, require. destruct (_ : bool); cbn [bind]; try (right; reflexivity); try (left; eexists; reflexivity); destruct (_ : bool); cbn [bind]; eauto. Qed.
Lemma play_copc_header poff w : play (t_copc_header poff w) (b_out (w_base w)) = b_out (w_base (fst (copc_write_header poff w))).
Proof.
  unfold t_copc_header, copc_write_header. cbv zeta. rewrite play_app, play_las_header. destruct (write_las_header _ _ _ _) as (b, [u| |]) eqn:EL; cbn [fst]; [|reflexivity..].
  assert (HE : exists eb, h_eb_size (c_hdr (w_cfg w)) = Ok eb).
  { unfold write_las_header in EL. destruct (h_eb_size _) as [eb| |]; [eauto|discriminate EL..]. }
  destruct HE as (eb & HE). unfold copc_vlrs_sent, copc_vlrs. destruct (dim_get DGpsTime (c_exts (w_cfg w))) as [gps| |]; cbn [bind]; [|cbn [play]; unfold emit; cbn [fst with_base w_base with_out b_out]; now rewrite put_nil|reflexivity].
  rewrite play_app. cbn [play do_sop]. rewrite HE.
  destruct (new_extent2_cases (vx (h_min (c_hdr (w_cfg w)))) (vx (h_max (c_hdr (w_cfg w))))) as [(e1 & ->)| ->]; cbn [bind]; [|cbn [play]; unfold emit; cbn [fst with_base w_base with_out b_out]; now rewrite put_app].
  destruct (new_extent2_cases (vy (h_min (c_hdr (w_cfg w)))) (vy (h_max (c_hdr (w_cfg w))))) as [(e2 & ->)| ->]; cbn [bind]; [|cbn [play]; unfold emit; cbn [fst with_base w_base with_out b_out]; now rewrite put_app].
  destruct (new_extent2_cases (vz (h_min (c_hdr (w_cfg w)))) (vz (h_max (c_hdr (w_cfg w))))) as [(e3 & ->)| ->]; cbn [bind]; [|cbn [play]; unfold emit; cbn [fst with_base w_base with_out b_out]; now rewrite put_app].
  rewrite !play_app. unfold emit. cbn [with_out b_out]. set (o := b_out b). clearbody o.
  match goal with |- _ = b_out (w_base (fst (if ?c then _ else _))) => destruct c end; cbn [fst with_base w_base with_out b_out]; rewrite !put_app; destruct (xs_ext _); cbn [play do_sop]; rewrite ?put_app, ?put_nil; reflexivity.
Qed.
Lemma play_close cd od w : play (t_body cd od w ++ t_tail cd od w) (b_out (w_base w)) = b_out (w_base (fst (close cd od w))).
Proof.
  rewrite play_app. unfold t_body, t_tail, before_header, close. destruct (negb _); [reflexivity|]. destruct (copc_offset (w_cfg w)) as [poff| |]; [|reflexivity..].
  rewrite play_app, play_table. destruct (write_chunk_table cd poff (w_base w)) as (b1, [u| |]); cbn [fst]; [|reflexivity..].
  fold (after_table b1 w). cbv zeta. cbn [play do_sop]. change (seek_end (b_out b1)) with (b_out (w_base (after_table b1 w))).
  change (with_base (mkBW (b_out (with_out (seek_end (b_out b1)) b1)) (b_open (with_out (seek_end (b_out b1)) b1)) (b_chunks (with_out (seek_end (b_out b1)) b1)) (b_points (with_out (seek_end (b_out b1)) b1)) (tell64 (b_out (with_out (seek_end (b_out b1)) b1))) (to_u 32 (b_evcnt (with_out (seek_end (b_out b1)) b1) + Z.of_nat (length (w_pages w))))) w) with (after_table b1 w).
  set (w2 := after_table b1 w). clearbody w2. destruct (compute_hierarchy _ _) as [pages| |]; [|reflexivity..]. cbn [w_base w_cfg w_loaded].
  set (w3 := mkW (w_base w2) (w_cfg w2) (w_loaded w2) pages). change (w_base w2) with (w_base w3). clearbody w3. rewrite play_app, play_tree.
  destruct (write_page_tree _ od root_key w3) as (w4, [v| |]); cbn [fst then_]; [|reflexivity..]. rewrite play_wkt.
  set (w5 := with_base (write_wkt (c_wkt (w_cfg w4)) (w_base w4)) w4). change (write_wkt (c_wkt (w_cfg w4)) (w_base w4)) with (w_base w5). clearbody w5. rewrite play_copc_header.
  destruct (copc_write_header poff w5) as (w6, [y| |]); reflexivity.
Qed.
Lemma play_session cd od cap c v w0 ops : open_writer cap c v = Ok w0 ->
  play (t_session cd od w0 ops) (empty_out cap) = b_out (w_base (fst (close cd od (fst (wrun cd ops w0))))).
Proof.
  intros O. unfold t_session. rewrite play_app. unfold open_writer in O. destruct (init_writer c v) as [c0| |]; [|discriminate..]. cbn [bind] in O. destruct (copc_offset c0) as [poff| |] eqn:E; [|discriminate..]. cbn [bind] in O.
  apply (f_equal (fun o => match o with Ok a => a | _ => w0 end)) in O. cbv beta iota in O. assert (S0 : b_out (w_base w0) = put (zeros (Z.to_nat (first_chunk_offset poff))) (empty_out cap)) by (rewrite <- O; reflexivity).
  assert (C0 : w_cfg w0 = c0) by (rewrite <- O; reflexivity). rewrite C0, E. unfold t_reserve at 1. cbn [play do_sop]. rewrite <- S0, play_app, play_run. apply play_close.
Qed.

Lemma play_laz_step cd op w : play (t_laz_step cd op w) (b_out (lw_base w)) = b_out (lw_base (fst (lstep cd op w))).
Proof.
  assert (CW : forall x, b_out (lw_base (fst (chunk_written (lw_cfg w) x))) = b_out (fst x)) by (intros (b, [r| |]); reflexivity).
  destruct op as [hp c|data n]; cbn [t_laz_step lstep].
  - destruct (c_pts c); [reflexivity|]. destruct (_ || _); [reflexivity|]. destruct (points_pack _ _ _ _); [|reflexivity..]. rewrite CW. apply play_chunk.
  - destruct (n =? 0); [reflexivity|]. rewrite CW. apply play_chunk.
Qed.
Lemma play_laz_run cd ops : forall w, play (t_laz_run cd ops w) (b_out (lw_base w)) = b_out (lw_base (fst (lrun cd ops w))).
Proof.
  induction ops as [|op ops IH]; intros w; [reflexivity|]. cbn [t_laz_run lrun]. rewrite play_app, play_laz_step. destruct (lstep cd op w) as (w1, [r| |]); cbn [fst]; [rewrite IH; destruct (lrun cd ops w1); reflexivity..|reflexivity].
Qed.
Lemma play_laz_session cd cap z w0 ops : open_laz_writer cap z = Ok w0 ->
  play (t_laz_session cd w0 ops) (empty_out cap) = b_out (lw_base (fst (close_laz cd (fst (lrun cd ops w0))))).
Proof.
  intros O. unfold t_laz_session. rewrite play_app. unfold open_laz_writer in O. destruct (base_offset (z_hdr z) (z_ebs z)) as [poff| |] eqn:E; [|discriminate..]. cbn [bind] in O.
  apply (f_equal (fun o => match o with Ok a => a | _ => w0 end)) in O. cbv beta iota in O. assert (S0 : b_out (lw_base w0) = put (zeros (Z.to_nat (first_chunk_offset poff))) (empty_out cap)) by (rewrite <- O; reflexivity).
  assert (C0 : lw_cfg w0 = z) by (rewrite <- O; reflexivity). rewrite C0, E. unfold t_reserve at 1. cbn [play do_sop]. rewrite <- S0, play_app, play_laz_run, play_base_close.
  unfold close_laz. destruct (base_close _ _ _); reflexivity.
Qed.
