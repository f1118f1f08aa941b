(* ModelExtents.v - per-dimension extents and their VLRs.
   Source: cpp/include/copc-lib/copc/extents.hpp, cpp/src/copc/extents.cpp, cpp/src/las/vlr.cpp *)
From Verif Require Import Base ModelFloat ModelPoint ModelHeader ModelVlr.

(* extents.hpp:25-28 *)
Record extent := mkExt { ex_min : f64; ex_max : f64; ex_mean : f64; ex_var : f64 }.
Definition default_extent : extent := mkExt f0 f0 f0 f1.

(* extents.cpp:8-15; mean and var default to 0 and 1 (extents.hpp:32) *)
Definition new_extent (mn mx mean var : f64) : outcome extent :=
  if fgt mn mx then Throw else if flt var f0 then Throw else Ok (mkExt mn mx mean var).
Definition new_extent2 (mn mx : f64) : outcome extent := new_extent mn mx f0 f1.

(* extents.cpp:17-32 constructor from a list: the variance is not checked *)
Definition extent_of_list (l : list f64) : outcome extent :=
  match l with
  | [mn; mx] => if fgt mn mx then Throw else Ok (mkExt mn mx f0 f1)
  | [mn; mx; mean; var] => if fgt mn mx then Throw else Ok (mkExt mn mx mean var)
  | _ => Throw
  end.

(* extents.cpp:34-41 copy constructor: checks again *)
Definition copy_extent (e : extent) : outcome extent :=
  if fgt (ex_min e) (ex_max e) then Throw else if flt (ex_var e) f0 then Throw else Ok e.

(* extents.hpp:46-49 operator== *)
Definition extent_eqb (a b : extent) : bool :=
  feq (ex_min a) (ex_min b) && feq (ex_max a) (ex_max b) && feq (ex_mean a) (ex_mean b) && feq (ex_var a) (ex_var b).

(* extents.hpp:223-225; the slots hold shared pointers in C++; here they hold values.  ModelConfig.v
   has the version with explicit pointers, for the aliasing properties. *)
Record extents := mkExts { xs_fmt : Z; xs_ext : bool; xs_items : list extent }.

(* extents.cpp:154-157 with utils.cpp:21-34; num_eb_items is uint16 *)
Definition num_extents (fmt neb : Z) : outcome Z := let! b := base_dims fmt in Ok (b + to_u 16 neb).

(* extents.cpp:51-60 *)
Definition new_extents (fmt neb : Z) (ext : bool) : outcome extents :=
  if (fmt <? 6) || (8 <? fmt) then Throw
  else let! n := num_extents fmt neb in Ok (mkExts fmt ext (repeat default_extent (Z.to_nat n))).

(* extents.cpp:63-69; other.Extents() (extents.hpp:77-85) copies every extent, which checks it *)
Definition copy_extents (x : extents) : outcome extents :=
  let! items := mapM copy_extent (xs_items x) in Ok (mkExts (xs_fmt x) (xs_ext x) items).

(* list update; writing outside a std::vector is undefined *)
Fixpoint set_nth {A} (n : nat) (v : A) (l : list A) : outcome (list A) :=
  match l, n with
  | [], _ => UB
  | _ :: r, O => Ok (v :: r)
  | a :: r, S n' => let! r' := set_nth n' v r in Ok (a :: r')
  end.
Definition get_nth {A} (n : nat) (l : list A) : outcome A :=
  match nth_error l n with Some v => Ok v | None => UB end.
(* for (i in range) dst[i + d] = src[i + s] *)
Fixpoint copy_range {A} (n s d : nat) (src dst : list A) : outcome (list A) :=
  match n with
  | O => Ok dst
  | S n' => let! v := get_nth s src in let! dst := set_nth d v dst in copy_range n' (S s) (S d) src dst
  end.

(* extents.cpp:71-103 *)
Definition reslot_extents (o : extents) (fmt neb : Z) (ext : bool) : outcome extents :=
  let! x := new_extents fmt neb ext in
  let! l := copy_range 14 0 0 (xs_items o) (xs_items x) in
  let! l := (if (6 <? fmt) && (6 <? xs_fmt o) then copy_range 3 14 14 (xs_items o) l else Ok l) in
  let! l := (if (fmt =? 8) && (xs_fmt o =? 8) then copy_range 1 17 17 (xs_items o) l else Ok l) in
  let! ob := base_dims (xs_fmt o) in
  let! b := base_dims fmt in
  (* num_eb_items is uint16; the subtraction of size_t and uint8 is unsigned *)
  let neb := to_u 16 neb in
  let! l := (if neb =? to_u 64 (Z.of_nat (length (xs_items o)) - ob)
             then copy_range (Z.to_nat neb) (Z.to_nat ob) (Z.to_nat b) (xs_items o) l else Ok l) in
  Ok (mkExts fmt ext l).

(* ---- VLRs: lists of (minimum, maximum) pairs (vlr.hpp:36-63) ---- *)
Definition pairs := list (f64 * f64).
(* vlr.cpp:94-101 *)
Definition enc_pairs (v : pairs) : bytes := flat_map (fun p => enc_f64 (fst p) ++ enc_f64 (snd p)) v.
(* vlr.cpp:103 *)
Definition pairs_size (v : pairs) : Z := 16 * Z.of_nat (length v).
(* vlr.cpp:105-108: the length is cast to uint16 *)
Definition extents_vlr_header (v : pairs) : vlr_header := mkVlrH false 0 s_copc 10000 (to_u 16 (pairs_size v)) s_extents.
(* copc_writer_internal.cpp:93-96 *)
Definition extended_vlr_header (v : pairs) : vlr_header := mkVlrH false 0 s_rock 10001 (to_u 16 (pairs_size v)) s_extended.
(* vlr.cpp:78-92 *)
Definition dec_pair (b : bytes) : option ((f64 * f64) * bytes) :=
  let? (mn, b) := dec_f64 b in let? (mx, b) := dec_f64 b in Some ((mn, mx), b).
Definition dec_pairs (byte_size : Z) (b : bytes) : option (pairs * bytes) :=
  dec_many (Z.to_nat (byte_size / 16)) dec_pair b.

(* extents.cpp:106-120 *)
Definition extents_of_vlr (v : pairs) (fmt neb : Z) (ext : bool) : outcome extents :=
  if (fmt <? 6) || (8 <? fmt) then Throw
  else
    let! n := num_extents fmt neb in
    if negb (Z.of_nat (length v) =? n) then Throw
    else let! items := mapM (fun p => new_extent2 (fst p) (snd p)) v in Ok (mkExts fmt ext items).

(* extents.cpp:122-130; the three arguments are not used *)
Definition extents_to_vlr (x : extents) : pairs := map (fun e => (ex_min e, ex_max e)) (xs_items x).
(* extents.cpp:132-139 *)
Definition extents_to_extended (x : extents) : pairs := map (fun e => (ex_mean e, ex_var e)) (xs_items x).

(* extents.cpp:141-152 *)
Definition set_extended (x : extents) (v : pairs) : outcome extents :=
  if negb (xs_ext x) then Throw
  else if negb (Nat.eqb (length v) (length (xs_items x))) then Throw
  else Ok (mkExts (xs_fmt x) (xs_ext x)
             (map (fun ep => mkExt (ex_min (fst ep)) (ex_max (fst ep)) (fst (snd ep)) (snd (snd ep))) (combine (xs_items x) v))).

(* extents.cpp:159-162 *)
Definition extents_byte_size (fmt neb : Z) : outcome Z :=
  let! x := new_extents fmt neb false in Ok (pairs_size (extents_to_vlr x)).

(* dimension accessors, extents.hpp:87-130: slot numbers *)
Inductive dim := DX | DY | DZ | DIntensity | DReturnNumber | DNumberOfReturns | DScannerChannel | DScanDirection
  | DEdgeOfFlight | DClassification | DUserData | DScanAngle | DPointSource | DGpsTime | DRed | DGreen | DBlue | DNir.
Definition dim_get (d : dim) (x : extents) : outcome extent :=
  match d with
  | DX => get_nth 0 (xs_items x) | DY => get_nth 1 (xs_items x) | DZ => get_nth 2 (xs_items x)
  | DIntensity => get_nth 3 (xs_items x) | DReturnNumber => get_nth 4 (xs_items x) | DNumberOfReturns => get_nth 5 (xs_items x)
  | DScannerChannel => get_nth 6 (xs_items x) | DScanDirection => get_nth 7 (xs_items x) | DEdgeOfFlight => get_nth 8 (xs_items x)
  | DClassification => get_nth 9 (xs_items x) | DUserData => get_nth 10 (xs_items x) | DScanAngle => get_nth 11 (xs_items x)
  | DPointSource => get_nth 12 (xs_items x) | DGpsTime => get_nth 13 (xs_items x)
  | DRed => if 6 <? xs_fmt x then get_nth 14 (xs_items x) else Throw
  | DGreen => if 6 <? xs_fmt x then get_nth 15 (xs_items x) else Throw
  | DBlue => if 6 <? xs_fmt x then get_nth 16 (xs_items x) else Throw
  | DNir => if xs_fmt x =? 8 then get_nth 17 (xs_items x) else Throw
  end.
(* extents.hpp:132-138 ExtraBytes() *)
Definition eb_extents (x : extents) : outcome (list extent) :=
  let! b := base_dims (xs_fmt x) in Ok (skipn (Z.to_nat b) (xs_items x)).
