(* ModelPickle.v - Python pickling of the library's value classes.
   Source: python/bindings.cpp (py::pickle lambdas).  pybind11 conversions are modelled by their
   documented behaviour: integers are range-checked on the way in, std::string becomes a Python str by
   UTF-8 decoding (an invalid string throws) and comes back by encoding.  Python's own pickle of
   ints, floats, bools, strings, bytes, lists and tuples is taken to be faithful. *)
From Verif Require Import Base ModelFloat ModelKey ModelEntry ModelGeom ModelPoint ModelHeader.

Inductive pyval :=
| PyInt (z : Z) | PyFloat (f : f64) | PyBool (b : bool) | PyStr (codepoints : list Z) | PyBytes (b : bytes)
| PyList (l : list pyval) | PyTuple (l : list pyval)
| PyObj (cls : nat) (state : pyval).     (* an instance of a pickled class, by its __getstate__ value *)
Definition cls_key : nat := 0.
Definition cls_vector : nat := 1.

(* ---- UTF-8 (PyUnicode_DecodeUTF8 / PyUnicode_AsUTF8) ---- *)
Definition cont (b : Z) : bool := (128 <=? b) && (b <=? 191).
Fixpoint utf8_dec (s : bytes) : option (list Z) :=
  match s with
  | [] => Some []
  | a :: r =>
      if (0 <=? a) && (a <? 128) then let? t := utf8_dec r in Some (a :: t)
      else if (194 <=? a) && (a <=? 223) then
        match r with
        | b :: r => if cont b then let? t := utf8_dec r in Some ((a - 192) * 64 + (b - 128) :: t) else None
        | _ => None
        end
      else if (224 <=? a) && (a <=? 239) then
        match r with
        | b :: c :: r =>
            let cp := (a - 224) * 4096 + (b - 128) * 64 + (c - 128) in
            if cont b && cont c && (2048 <=? cp) && negb ((55296 <=? cp) && (cp <=? 57343))
            then let? t := utf8_dec r in Some (cp :: t) else None
        | _ => None
        end
      else if (240 <=? a) && (a <=? 244) then
        match r with
        | b :: c :: d :: r =>
            let cp := (a - 240) * 262144 + (b - 128) * 4096 + (c - 128) * 64 + (d - 128) in
            if cont b && cont c && cont d && (65536 <=? cp) && (cp <=? 1114111)
            then let? t := utf8_dec r in Some (cp :: t) else None
        | _ => None
        end
      else None
  end.
Definition utf8_enc1 (cp : Z) : bytes :=
  if cp <? 128 then [cp]
  else if cp <? 2048 then [192 + cp / 64; 128 + cp mod 64]
  else if cp <? 65536 then [224 + cp / 4096; 128 + cp / 64 mod 64; 128 + cp mod 64]
  else [240 + cp / 262144; 128 + cp / 4096 mod 64; 128 + cp / 64 mod 64; 128 + cp mod 64].
Definition utf8_enc (s : list Z) : bytes := flat_map utf8_enc1 s.

(* ---- conversions ---- *)
Definition to_str (s : bytes) : outcome pyval := match utf8_dec s with Some t => Ok (PyStr t) | None => Throw end.
(* std::string caster: accepts str (as UTF-8) and bytes *)
Definition cast_str (v : pyval) : outcome bytes :=
  match v with PyStr t => Ok (utf8_enc t) | PyBytes b => Ok b | _ => Throw end.
Definition cast_int (lo hi : Z) (v : pyval) : outcome Z :=
  match v with PyInt z => if (lo <=? z) && (z <=? hi) then Ok z else Throw | _ => Throw end.
Definition cast_i8 := cast_int (-128) 127.
Definition cast_u16 := cast_int 0 65535.
Definition cast_i32 := cast_int (-2147483648) 2147483647.
Definition cast_u32 := cast_int 0 4294967295.
Definition cast_u64 := cast_int 0 18446744073709551615.
Definition cast_double (v : pyval) : outcome f64 := match v with PyFloat f => Ok f | _ => Throw end.
Definition cast_bool (v : pyval) : outcome bool := match v with PyBool b => Ok b | _ => Throw end.

(* bindings.cpp:36-45 std::vector<char> *)
Definition getstate_bytes (b : bytes) : pyval := PyTuple [PyBytes b].
Definition setstate_bytes (v : pyval) : outcome bytes := match v with PyTuple (s :: _) => cast_str s | _ => Throw end.

(* bindings.cpp:77-93 VoxelKey *)
Definition getstate_key (k : key) : pyval := PyTuple [PyInt (kd k); PyInt (kx k); PyInt (ky k); PyInt (kz k)].
Definition setstate_key (v : pyval) : outcome key :=
  match v with
  | PyTuple [d; x; y; z] => let! d := cast_i32 d in let! x := cast_i32 x in let! y := cast_i32 y in let! z := cast_i32 z in Ok (mkKey d x y z)
  | _ => Throw
  end.
Definition cast_key (v : pyval) : outcome key := match v with PyObj c s => if Nat.eqb c cls_key then setstate_key s else Throw | _ => Throw end.

(* bindings.cpp:203-209 Vector3 *)
Definition getstate_vec (v : vec3) : pyval := PyTuple [PyFloat (vx v); PyFloat (vy v); PyFloat (vz v)].
Definition setstate_vec (v : pyval) : outcome vec3 :=
  match v with
  | PyTuple (x :: y :: z :: _) => let! x := cast_double x in let! y := cast_double y in let! z := cast_double z in Ok (mkVec x y z)
  | _ => Throw
  end.
Definition cast_vec (v : pyval) : outcome vec3 := match v with PyObj c s => if Nat.eqb c cls_vector then setstate_vec s else Throw | _ => Throw end.

(* node.hpp:14-22: an entry plus the key of its page *)
Record pynode := mkPyNode { pn_entry : entry; pn_page : key }.
(* bindings.cpp:133-150 Node *)
Definition getstate_node (n : pynode) : pyval :=
  let e := pn_entry n in
  PyTuple [PyObj cls_key (getstate_key (e_key e)); PyInt (e_offset e); PyInt (e_size e); PyInt (e_count e); PyObj cls_key (getstate_key (pn_page n))].
Definition setstate_node (v : pyval) : outcome pynode :=
  match v with
  | PyTuple [k; off; size; count; page] =>
      let! k := cast_key k in let! off := cast_u64 off in let! size := cast_i32 size in let! count := cast_i32 count in
      let! page := cast_key page in Ok (mkPyNode (mkEntry k off size count) page)
  | _ => Throw
  end.

(* bindings.cpp:506-514 LasHeader __getstate__ *)
Definition getstate_header (h : las_header) : outcome pyval :=
  let! guid := to_str (h_guid h) in let! sys := to_str (h_sys h) in let! gen := to_str (h_gen h) in
  Ok (PyTuple [PyInt (h_src h); PyInt (h_enc h); guid; sys; gen; PyInt (h_day h); PyInt (h_year h); PyInt (h_poff h);
    PyInt (h_vlrs h); PyInt (h_fmt h); PyInt (h_reclen h); PyObj cls_vector (getstate_vec (h_scale h)); PyObj cls_vector (getstate_vec (h_offset h));
    PyObj cls_vector (getstate_vec (h_max h)); PyObj cls_vector (getstate_vec (h_min h)); PyInt (h_evoff h); PyInt (h_evcnt h); PyInt (h_pcount h);
    PyList (map PyInt (h_pbr h)); PyBool (h_copc h)]).
(* std::array<uint64_t, 15> caster: a sequence of exactly 15 *)
Definition cast_array15 (v : pyval) : outcome (list Z) :=
  match v with PyList l | PyTuple l => if Nat.eqb (length l) 15 then mapM cast_u64 l else Throw | _ => Throw end.
(* bindings.cpp:515-535 __setstate__, through the pickling constructor (header.hpp:37-42) and the setters *)
Definition setstate_header (v : pyval) : outcome las_header :=
  match v with
  | PyTuple [t0; t1; t2; t3; t4; t5; t6; t7; t8; t9; t10; t11; t12; t13; t14; t15; t16; t17; t18; t19] =>
      let! fmt := cast_i8 t9 in let! reclen := cast_u16 t10 in let! poff := cast_u32 t7 in let! pcount := cast_u64 t17 in
      let! vlrs := cast_u32 t8 in let! scale := cast_vec t11 in let! offset := cast_vec t12 in let! evoff := cast_u64 t15 in
      let! evcnt := cast_u32 t16 in let! copc := cast_bool t19 in
      let! src := cast_u16 t0 in let! enc := cast_u16 t1 in
      let! guid := cast_str t2 in let! sys := cast_str t3 in let! gen := cast_str t4 in
      let! day := cast_u16 t5 in let! year := cast_u16 t6 in
      let! mx := cast_vec t13 in let! mn := cast_vec t14 in let! pbr := cast_array15 t18 in
      let h := mkHdr src enc day year mx mn pbr scale offset fmt reclen pcount poff vlrs evoff evcnt [] [] [] copc in
      let! h := set_guid guid h in let! h := set_system_identifier sys h in set_generating_software gen h
  | _ => Throw
  end.
