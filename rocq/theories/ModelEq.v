(* ModelEq.v - remaining comparison operators and Resolution.
   Source: cpp/include/copc-lib/las/vlr.hpp:67-76, cpp/include/copc-lib/hierarchy/node.hpp:20, cpp/include/copc-lib/hierarchy/key.hpp:104-123,
   cpp/src/hierarchy/key.cpp:91-99 *)
From Verif Require Import Base ModelFloat ModelKey ModelGeom ModelEntry ModelPoint ModelHeader ModelVlr.

(* node.hpp:20: Entry::IsEqual of the entry parts; the page key is not compared *)
Definition node_eqb (a b : node) : bool := entry_eqb (n_entry a) (n_entry b).

(* vlr.hpp:70-76.  no_data, minval, maxval, scale and offset are arrays of three 8-byte numbers (24 bytes in
   ModelVlr.v), and memcmp is given the length 3 *)
Fixpoint list_eqb (a b : bytes) : bool :=
  match a, b with [], [] => true | x :: a', y :: b' => (x =? y) && list_eqb a' b' | _, _ => false end.
Definition memcmp_eq (n : nat) (a b : bytes) : bool := list_eqb (firstn n a) (firstn n b).
Definition ebfield_eqb (a b : ebfield) : bool :=
  (eb_res a =? eb_res b) && (eb_type a =? eb_type b) && (eb_options a =? eb_options b) && list_eqb (eb_name a) (eb_name b) &&
  memcmp_eq 3 (eb_nodata a) (eb_nodata b) && memcmp_eq 3 (eb_min a) (eb_min b) && memcmp_eq 3 (eb_max a) (eb_max b) &&
  memcmp_eq 3 (eb_scale a) (eb_scale b) && memcmp_eq 3 (eb_offset a) (eb_offset b) && list_eqb (eb_desc a) (eb_desc b).

(* key.hpp:112-123; h is std::hash<uint64_t>.  The signed members are converted to uint64_t before | *)
Definition key_hash (h : Z -> Z) (k : key) : Z :=
  let k1 := Z.lor (to_u 64 (Z.shiftl (to_u 64 (kd k)) 32)) (to_u 64 (kx k)) in
  let k2 := Z.lor (to_u 64 (Z.shiftl (to_u 64 (ky k)) 32)) (to_u 64 (kz k)) in
  Z.lxor (h k1) (to_u 64 (Z.shiftl (h k2) 1)).

(* key.cpp:91-94 (d is an int32, converted to double by std::pow) and 96-99; the header is not used *)
Definition resolution (spacing : f64) (k : key) : f64 := fdiv spacing (fpow2 (kd k)).
Definition resolution_at_depth (spacing : f64) (d : Z) : f64 := resolution spacing (mkKey d 0 0 0).
