(* ModelStream.v - output streams, key-indexed containers and the LAZ codec interface.
   These model the C++ standard library and lazperf (neither is in /repo), not copc-lib itself. *)
From Verif Require Import Base ModelKey ModelEntry.

(* a std::ostream opened for writing: contents, write position, failbit, and for streams that run
   out of space the size at which they do *)
Record ostream := mkOut { o_data : bytes; o_pos : nat; o_bad : bool; o_cap : option nat }.
Definition empty_out (cap : option nat) : ostream := mkOut [] 0 false cap.

(* overwrite the contents at a position (positions never exceed the size, see lemma put_end) *)
Definition splice (p : nat) (b d : bytes) : bytes := firstn p d ++ b ++ skipn (p + length b) d.
(* ostream::write: a failed stream ignores it; a full one stores what fits and fails *)
Definition put (b : bytes) (s : ostream) : ostream :=
  if o_bad s then s else
  let b' := match o_cap s with None => b | Some c => firstn (c - o_pos s) b end in
  mkOut (splice (o_pos s) b' (o_data s)) (o_pos s + length b') (length b' <? length b)%nat (o_cap s).
(* seekp(0, std::ios::end) and seekp(p); no effect on a failed stream *)
Definition seek_end (s : ostream) : ostream :=
  if o_bad s then s else mkOut (o_data s) (length (o_data s)) false (o_cap s).
Definition seek_to (p : nat) (s : ostream) : ostream :=
  if o_bad s then s else mkOut (o_data s) p false (o_cap s).
(* tellp() converted to uint64_t: -1 on a failed stream *)
Definition tell64 (s : ostream) : Z := to_u 64 (if o_bad s then -1 else Z.of_nat (o_pos s)).

(* std::unordered_map / std::map keyed by VoxelKey, as an association list *)
Definition kmap (V : Type) := list (key * V).
Fixpoint mget {V} (k : key) (m : kmap V) : option V :=
  match m with
  | [] => None
  | (k', v) :: r => if key_eqb k' k then Some v else mget k r
  end.
Definition mdel {V} (k : key) (m : kmap V) : kmap V := filter (fun p => negb (key_eqb (fst p) k)) m.
Definition mset {V} (k : key) (v : V) (m : kmap V) : kmap V := (k, v) :: mdel k m.
Definition mhas {V} (k : key) (m : kmap V) : bool := match mget k m with Some _ => true | None => false end.

(* lazperf: compression of the records of one chunk (point format, extra byte size, records),
   decompression of a number of records from a byte stream, and the chunk table (point count and
   byte length of each chunk) *)
Record codec := mkCodec {
  cd_comp : Z -> Z -> bytes -> bytes;
  cd_decomp : Z -> Z -> Z -> bytes -> option bytes;
  cd_table : list (Z * Z) -> bytes;
  cd_untable : Z -> bytes -> option (list (Z * Z)) }.

(* iteration orders of the hash maps and pointer sets, and the text of page descriptions: whatever
   the standard library and VoxelKey::ToString produce *)
Record orders := mkOrd { od_nodes : key -> list node -> list node; od_subs : key -> list key -> list key; od_desc : key -> bytes }.
