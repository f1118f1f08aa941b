(* SpecWriter.v - vocabulary for written files *)
From Coq Require Import Permutation.
From Verif Require Import Base ModelFloat ModelKey ModelGeom ModelEntry ModelPoint ModelPoints ModelHeader ModelVlr ModelExtents ModelConfig
  ModelStream ModelWriter SpecKey SpecPoint SpecConfig.

(* the bytes written so far *)
Definition file (w : writer) : bytes := o_data (b_out (w_base w)).
(* len bytes from position off *)
Definition bytes_at (off len : Z) (f : bytes) : bytes := firstn (Z.to_nat len) (skipn (Z.to_nat off) f).

(* whatever order the containers are iterated in, every element is visited once *)
Definition reorders (od : orders) : Prop :=
  (forall k l, Permutation (od_nodes od k l) l) /\ (forall k l, Permutation (od_subs od k l) l).
(* bytes of one record *)
Definition rec_size (fmt eb : Z) : Z := las_base fmt + eb.
(* the LAZ codec restores what was compressed, whatever follows it in the file *)
Definition lossless (cd : codec) : Prop :=
  (forall fmt eb n data rest, 6 <= fmt <= 8 -> 0 <= eb -> 0 < n -> Z.of_nat (length data) = n * rec_size fmt eb ->
     cd_decomp cd fmt eb n (cd_comp cd fmt eb data ++ rest) = Some data) /\
  (forall l rest, Forall (fun c => 0 <= fst c < 2 ^ 64 /\ 0 <= snd c < 2 ^ 64) l -> cd_untable cd (Z.of_nat (length l)) (cd_table cd l ++ rest) = Some l).

(* arguments within their C++ types *)
Definition wf_op (op : wop) : Prop :=
  match op with
  | WAdd k _ p | WAddPoints k _ _ p | WMove k p => int32_key k /\ int32_key p
  | WAddCompressed k _ n p => int32_key k /\ int32_key p /\ -2^31 <= n < 2^31
  | WSetHeader h => wf_hdr h
  | WSetInfo i => wf_info i
  | WSetExtent _ _ => True
  end.

(* ---- what a log of calls says was written ---- *)
Definition log := list (wop * outcome (option node)).
(* the compressed chunk and point count that a call stores, for a writer with header h *)
Definition packed_chunk (cd : codec) (h : las_header) (records : bytes) : bytes * Z :=
  (cd_comp cd (h_fmt h) (h_reclen h - las_base (h_fmt h)) records, Z.of_nat (length records) / h_reclen h).
Definition chunk_of (cd : codec) (h : las_header) (op : wop) : option (bytes * Z) :=
  match op with
  | WAdd _ records _ => Some (packed_chunk cd h records)
  | WAddPoints _ hp c _ => match points_pack hp c (h_scale h) (h_offset h) with Ok records => Some (packed_chunk cd h records) | _ => None end
  | WAddCompressed _ data n _ => Some (data, n)
  | _ => None
  end.
Definition opt_list {A} (o : option A) : list A := match o with Some a => [a] | None => [] end.
(* the chunks of the accepted calls, in order *)
Definition chunks_of (cd : codec) (h : las_header) (l : log) : list (bytes * Z) :=
  flat_map (fun x => match x with (op, Ok (Some _)) => opt_list (chunk_of cd h op) | _ => [] end) l.
(* no single chunk exceeds 2^31-1 bytes *)
Definition chunks_fit (cd : codec) (h : las_header) (ops : list wop) : Prop :=
  forall op b n, In op ops -> chunk_of cd h op = Some (b, n) -> Z.of_nat (length b) <= INT32_MAX.
Definition total_points (cs : list (bytes * Z)) : Z := fold_right (fun c a => snd c + a) 0 cs.

(* ---- where the nodes are: key -> the node returned by the last accepted AddNode and its present page ---- *)
Definition view := key -> option (node * key).
Definition set_view (k : key) (x : node * key) (v : view) : view := fun k' => if key_eqb k k' then Some x else v k'.
Definition see (v : view) (x : wop * outcome (option node)) : view :=
  match x with
  | (WAdd k _ p, Ok (Some n)) | (WAddPoints k _ _ p, Ok (Some n)) | (WAddCompressed k _ _ p, Ok (Some n)) => set_view k (n, p) v
  | (WMove k p, Ok _) => match v k with Some (n, _) => set_view k (n, p) v | None => v end
  | _ => v
  end.
Definition view_of (l : log) : view := fold_left see l (fun _ => None).
(* no accepted call names a page other than the one holding the key, and no node is moved a second
   time without having been added again *)
Definition calm (v : view) (x : wop * outcome (option node)) : Prop :=
  match x with
  | (WAdd k _ p, Ok _) | (WAddPoints k _ _ p, Ok _) | (WAddCompressed k _ _ p, Ok _) => forall n q, v k = Some (n, q) -> q = p
  | (WMove k p, Ok _) => forall n q, v k = Some (n, q) -> n_page n = q
  | _ => True
  end.
Fixpoint settled_from (v : view) (l : log) : Prop :=
  match l with [] => True | x :: r => calm v x /\ settled_from (see v x) r end.
Definition settled (l : log) : Prop := settled_from (fun _ => None) l.

(* a whole writing session on an unbounded stream: constructor, calls, Close *)
Definition session (cd : codec) (od : orders) (c : config) (v : overrides) (ops : list wop) (l : log) (w : writer) : Prop :=
  exists w0 w1, open_writer None c v = Ok w0 /\ wrun cd ops w0 = (w1, l) /\ close cd od w1 = (w, Ok tt).
(* no call of the log was undefined *)
Definition all_defined (l : log) : Prop := Forall (fun x => snd x <> UB) l.
(* a configuration as the constructors build it, all fields within their C++ types *)
Definition ready (c : config) : Prop :=
  good_config c /\ wf_hdr (c_hdr c) /\ wf_info (c_info c) /\ Forall wf_eb (c_ebs c).
(* the same with everything a C++ program guarantees by typing: arguments in range, container orders
   that visit every element, a file below 2^64 bytes; c0 is the configuration the Writer starts from *)
Definition complete_session (cd : codec) (od : orders) (c : config) (v : overrides) (c0 : config) (ops : list wop) (l : log) (w : writer) : Prop :=
  session cd od c v ops l w /\ init_writer c v = Ok c0 /\ ready c0 /\ Forall wf_op ops /\ reorders od /\ all_defined l /\
  Z.of_nat (length (file w)) < 2 ^ 64.
(* AddNodeCompressed is given a positive count *)
Definition positive (op : wop) : Prop := match op with WAddCompressed _ _ n _ => 0 < n | _ => True end.
(* the node and page keys of an AddNode call *)
Definition add_keys (op : wop) : option (key * key) :=
  match op with WAdd k _ p | WAddPoints k _ _ p | WAddCompressed k _ _ p => Some (k, p) | _ => None end.
(* the page a call puts a node in *)
Definition target_page (op : wop) : option key :=
  match op with WAdd _ _ p | WAddPoints _ _ _ p | WAddCompressed _ _ _ p | WMove _ p => Some p | _ => None end.
(* no bound is above its counterpart (a NaN is not above anything) *)
Definition ordered_bounds (h : las_header) : Prop :=
  fgt (vx (h_min h)) (vx (h_max h)) = false /\ fgt (vy (h_min h)) (vy (h_max h)) = false /\ fgt (vz (h_min h)) (vz (h_max h)) = false.
(* position of the point data: header, the COPC info VLR, the extents VLR(s), the extra bytes VLR if
   there are extra bytes, the LAZ VLR *)
Definition data_start (c : config) : Z :=
  let k := Z.of_nat (length (c_ebs c)) in
  let fmt := h_fmt (c_hdr c) in
  375 + (54 + 160) + (54 + 16 * (las_dims fmt + k)) * (if xs_ext (c_exts c) then 2 else 1)
  + (if k =? 0 then 0 else 54 + 192 * k)
  + (54 + 34 + 6 * (1 + (if fmt =? 6 then 0 else 1) + (if h_reclen (c_hdr c) =? las_base fmt then 0 else 1))).
