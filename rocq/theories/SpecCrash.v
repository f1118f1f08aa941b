(* SpecCrash.v - vocabulary for programs that stop half way *)
From Verif Require Import Base ModelKey ModelEntry ModelConfig ModelStream ModelWriter ModelReader ModelLazReader ModelTrace SpecWriter SpecFile.

(* the bytes a program leaves behind that constructs a Writer, makes the calls ops, calls Close and is
   killed at an arbitrary moment (before, in or after any write) *)
Definition left_by_writer (cd : codec) (od : orders) (c : config) (v : overrides) (ops : list wop) (f : bytes) : Prop :=
  exists w0, open_writer None c v = Ok w0 /\ cut_short (t_session cd od w0 ops) (empty_out None) f.
(* the same for a program that does not get as far as Close *)
Definition left_unclosed (cd : codec) (c : config) (v : overrides) (ops : list wop) (f : bytes) : Prop :=
  exists w0, open_writer None c v = Ok w0 /\ cut_short (t_reserve (copc_offset (w_cfg w0)) ++ t_run cd ops w0) (empty_out None) f.
Definition left_by_laz_writer (cd : codec) (z : laz_config) (ops : list lop) (f : bytes) : Prop :=
  exists w0, open_laz_writer None z = Ok w0 /\ cut_short (t_laz_session cd w0 ops) (empty_out None) f.
Definition left_unclosed_laz (cd : codec) (z : laz_config) (ops : list lop) (f : bytes) : Prop :=
  exists w0, open_laz_writer None z = Ok w0 /\ cut_short (t_reserve (base_offset (z_hdr z) (z_ebs z)) ++ t_laz_run cd ops w0) (empty_out None) f.

(* no reader opens it: each throws *)
Definition rejected (f : bytes) : Prop := (forall isfile, open_reader isfile f = Throw) /\ open_laz_reader f = Throw.
(* the file f with the bytes from p up to q replaced by zeros *)
Definition blanked (p q : Z) (f : bytes) : bytes := bytes_at 0 p f ++ zeros (Z.to_nat (q - p)) ++ skipn (Z.to_nat q) f.
(* what is left when the program is killed after the calls that led to w1 have returned: during or
   after the calls ops2, or during or after Close *)
Definition left_after (cd : codec) (od : orders) (w1 : writer) (ops2 : list wop) (f : bytes) : Prop :=
  let w2 := fst (wrun cd ops2 w1) in cut_short (t_run cd ops2 w1 ++ t_body cd od w2 ++ t_tail cd od w2) (b_out (w_base w1)) f.
Definition laz_left_after (cd : codec) (w1 : laz_writer) (ops2 : list lop) (f : bytes) : Prop :=
  let w2 := fst (lrun cd ops2 w1) in
  cut_short (t_laz_run cd ops2 w1 ++ t_base_body cd (lw_cfg w2) (lw_base w2) ++ t_base_tail cd (lw_cfg w2) (lw_base w2)) (b_out (lw_base w1)) f.
