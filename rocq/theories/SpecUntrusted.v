(* SpecUntrusted.v - vocabulary for reading files from an untrusted source *)
From Verif Require Import Base ModelFloat ModelKey ModelGeom ModelEntry ModelPoint ModelPoints ModelHeader ModelVlr ModelExtents ModelConfig
  ModelStream ModelWriter ModelReader SpecKey SpecPoint SpecWriter SpecHier SpecFile SpecReader SpecData SpecOpen.

(* the pages of a file: the root page, the size bytes at off, and whatever the entries of its pages refer to *)
Inductive page_of (f : bytes) (off size : Z) : Z -> Z -> Prop :=
| page_root : page_of f off size off size
| page_sub o s es e : page_of f off size o s -> entries_at f o s es -> In e es -> is_sub e = true -> page_of f off size (e_offset e) (e_size e).
(* the entries of its nodes *)
Definition node_in (f : bytes) (off size : Z) (e : entry) : Prop :=
  exists o s es, page_of f off size o s /\ entries_at f o s es /\ In e es /\ is_sub e = false.
(* a page that starts in the file and ends after it *)
Definition cut_page (f : bytes) (o s : Z) : Prop := 0 <= o < Z.of_nat (length f) /\ Z.of_nat (length f) < o + s.
(* the size of the root page, a 64-bit field that is read into an int *)
Definition root_page_size (f : bytes) : Z := to_s 32 (copc_root_size f).

(* the three things that are asked of a file: no page is cut by its end, *)
Definition no_cut_page (f : bytes) : Prop := forall o s, page_of f (copc_root_offset f) (root_page_size f) o s -> ~ cut_page f o s.
(* no node is at the deepest depth that an int can hold, *)
Definition no_deepest_node (f : bytes) : Prop := forall e, node_in f (copc_root_offset f) (root_page_size f) e -> kd (e_key e) < INT32_MAX.
(* and the record length is that of the format's fields with extra bytes, up to 255 bytes (unless the format is one the library refuses) *)
Definition sane_records (h : las_header) : Prop := 6 <= h_fmt h <= 8 -> las_base (h_fmt h) <= h_reclen h <= 255.
(* a decompressor that produces the records it was asked for, or an exception *)
Definition sized_output (cd : codec) : Prop :=
  forall fmt eb n s b, 6 <= fmt <= 8 -> 0 <= eb -> 0 < n -> cd_decomp cd fmt eb n s = Some b -> wf_bytes b /\ Z.of_nat (length b) = n * (las_base fmt + eb).
(* the point count of a node given to a query is an int *)
Definition int_count (q : query) : Prop :=
  match q with QPointsOf n | QDataOf n | QCompressedOf n => e_count (n_entry n) <= INT32_MAX | _ => True end.

(* ---- opening ---- *)
(* every record of a file lies in it, with its data *)
Definition records_inside (f : bytes) : Prop :=
  (forall i, Z.of_nat i < las_vlr_count f -> vlr_pos f i + 54 + num_at (vlr_pos f i + 20) 2 f <= Z.of_nat (length f)) /\
  (forall i, Z.of_nat i < las_evlr_count f -> evlr_pos f i + 60 + num_at (evlr_pos f i + 20) 8 f <= Z.of_nat (length f)).
(* a WKT that is a VLR is followed by six bytes *)
Definition wkt_vlr_followed (f : bytes) : Prop :=
  forall i, Z.of_nat i < las_vlr_count f -> wkt_at f (vlr_pos f i) -> vlr_pos f i + 60 + num_at (vlr_pos f i + 20) 2 f <= Z.of_nat (length f).
(* the header's GUID, system identifier and generating software end with a NUL *)
Definition texts_terminated (f : bytes) : Prop := In 0 (bytes_at 8 16 f) /\ In 0 (bytes_at 26 32 f) /\ In 0 (bytes_at 58 32 f).
(* the file reaches to the end of the COPC info record *)
Definition info_inside (f : bytes) : Prop := 589 <= Z.of_nat (length f).
