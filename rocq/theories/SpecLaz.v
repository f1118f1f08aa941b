(* SpecLaz.v - vocabulary for LAZ files written by LazWriter *)
From Verif Require Import Base ModelFloat ModelKey ModelGeom ModelEntry ModelPoint ModelPoints ModelHeader ModelVlr ModelExtents ModelConfig
  ModelStream ModelWriter SpecKey SpecPoint SpecConfig SpecHeader SpecWriter.

Definition laz_file (w : laz_writer) : bytes := o_data (b_out (lw_base w)).
(* a configuration as LazConfigWriter's constructors build it, all fields within their C++ types *)
Definition laz_ready (z : laz_config) : Prop :=
  h_copc (z_hdr z) = false /\ 6 <= h_fmt (z_hdr z) <= 8 /\ Forall (fun e => 0 <= eb_type e <= 30) (z_ebs z) /\
  h_reclen (z_hdr z) = las_base (h_fmt (z_hdr z)) + eb_total (z_ebs z) /\ wf_hdr (z_hdr z) /\ Forall wf_eb (z_ebs z) /\
  Z.of_nat (length (z_ebs z)) < 65536.
Definition laz_log := list (lop * outcome unit).
(* the chunk a call writes; no chunk for an empty point list *)
Definition laz_chunk (cd : codec) (h : las_header) (op : lop) : option (bytes * Z) :=
  match op with
  | LWrite hp c => match c_pts c with [] => None | _ =>
      match points_pack hp c (h_scale h) (h_offset h) with Ok records => Some (packed_chunk cd h records) | _ => None end end
  | LWriteCompressed data n => Some (data, n)
  end.
Definition laz_chunks (cd : codec) (h : las_header) (l : laz_log) : list (bytes * Z) :=
  flat_map (fun x => match x with (op, Ok _) => opt_list (laz_chunk cd h op) | _ => [] end) l.
Definition laz_chunks_fit (cd : codec) (h : las_header) (ops : list lop) : Prop :=
  forall op b n, In op ops -> laz_chunk cd h op = Some (b, n) -> Z.of_nat (length b) <= INT32_MAX.
(* constructor, calls (none undefined) and Close on an unbounded stream; file below 2^64 bytes *)
Definition laz_session (cd : codec) (z : laz_config) (ops : list lop) (l : laz_log) (w : laz_writer) : Prop :=
  exists w0 w1, open_laz_writer None z = Ok w0 /\ lrun cd ops w0 = (w1, l) /\ close_laz cd w1 = (w, Ok tt) /\
    laz_ready z /\ Forall (fun x => snd x <> UB) l /\ Z.of_nat (length (laz_file w)) < 2 ^ 64.
(* position of the point data: header, extra bytes VLR if there are extra bytes, LAZ VLR *)
Definition laz_start (z : laz_config) : Z :=
  let k := Z.of_nat (length (z_ebs z)) in
  375 + (if k =? 0 then 0 else 54 + 192 * k)
  + (54 + 34 + 6 * (1 + (if h_fmt (z_hdr z) =? 6 then 0 else 1) + (if h_reclen (z_hdr z) =? las_base (h_fmt (z_hdr z)) then 0 else 1))).
