(* ModelFloat.v - the C++ 'double' and 'float' types as IEEE-754 binary64/binary32
   (Flocq), round to nearest even, and the few <cmath> functions the code uses.
   Models the language/library semantics, not a file of /repo. *)
From Verif Require Import Base.
From Flocq Require Import IEEE754.BinarySingleNaN IEEE754.Binary IEEE754.Bits.

Definition f64 := binary64.
Definition f32 := binary32.

Definition fadd (x y : f64) : f64 := b64_plus mode_NE x y.
Definition fsub (x y : f64) : f64 := b64_minus mode_NE x y.
Definition fmul (x y : f64) : f64 := b64_mult mode_NE x y.
Definition fdiv (x y : f64) : f64 := b64_div mode_NE x y.
Definition fabs (x : f64) : f64 := b64_abs x.
Definition fopp (x : f64) : f64 := b64_opp x.

(* comparison operators; false as soon as one operand is NaN (except !=) *)
Definition flt (x y : f64) : bool := match b64_compare x y with Some Lt => true | _ => false end.
Definition fle (x y : f64) : bool := match b64_compare x y with Some Lt | Some Eq => true | _ => false end.
Definition feq (x y : f64) : bool := match b64_compare x y with Some Eq => true | _ => false end.
Definition fgt (x y : f64) : bool := flt y x.
Definition fge (x y : f64) : bool := fle y x.

Definition fnan (x : f64) : bool := is_nan 53 1024 x.
Definition ffinite (x : f64) : bool := is_finite 53 1024 x.

(* conversion of an integer to double (nearest even; exact below 2^53) *)
Definition f64_of_Z (z : Z) : f64 := binary_normalize 53 1024 eq_refl eq_refl mode_NE z 0 false.
(* m * 2^e rounded to double: used for literals and powers of two *)
Definition f64_lit (m e : Z) : f64 := binary_normalize 53 1024 eq_refl eq_refl mode_NE m e false.
(* std::pow(2, d): the exact power of two when representable, +inf above, 0 below *)
Definition fpow2 (d : Z) : f64 := f64_lit 1 d.

Definition f0 : f64 := B754_zero 53 1024 false.
Definition f1 : f64 := f64_of_Z 1.
(* std::numeric_limits<double>::max() *)
Definition fmaxval : f64 := f64_lit (2^53 - 1) 971.

(* std::round: nearest integer, halves away from zero *)
Definition fround (x : f64) : f64 := Bnearbyint 53 1024 eq_refl unop_nan_pl64 mode_NA x.

(* static_cast to a signed n-bit integer: truncation; undefined when the truncated
   value is not representable or the operand is NaN / infinite *)
Definition f64_to_int (n : Z) (x : f64) : outcome Z :=
  if ffinite x then
    let z := Btrunc 53 1024 x in
    if in_range (- 2 ^ (n - 1)) (2 ^ (n - 1) - 1) z then Ok z else UB
  else UB.

(* bit patterns stored in files *)
Definition f64_bits (x : f64) : Z := bits_of_b64 x.
Definition f64_of_bits (z : Z) : f64 := b64_of_bits z.
Definition enc_f64 (x : f64) : bytes := enc_u64 (f64_bits x).
Definition dec_f64 (b : bytes) : option (f64 * bytes) :=
  match dec_u 8 b with Some (z, r) => Some (f64_of_bits z, r) | None => None end.

(* float (binary32) *)
Definition f32_of_Z (z : Z) : f32 := binary_normalize 24 128 eq_refl eq_refl mode_NE z 0 false.
Definition f32_mul (x y : f32) : f32 := b32_mult mode_NE x y.
Definition f32_div (x y : f32) : f32 := b32_div mode_NE x y.
Definition f32_to_int (n : Z) (x : f32) : outcome Z :=
  if is_finite 24 128 x then
    let z := Btrunc 24 128 x in
    if in_range (- 2 ^ (n - 1)) (2 ^ (n - 1) - 1) z then Ok z else UB
  else UB.
(* the literal 0.006f: binary32 nearest to 6/1000, = 12884902 * 2^-31 *)
Definition f32_0_006 : f32 := binary_normalize 24 128 eq_refl eq_refl mode_NE 12884902 (-31) false.

#[global] Arguments fadd : simpl never.
#[global] Arguments fsub : simpl never.
#[global] Arguments fmul : simpl never.
#[global] Arguments fdiv : simpl never.
#[global] Arguments fabs : simpl never.
#[global] Arguments fopp : simpl never.
#[global] Arguments flt : simpl never.
#[global] Arguments fle : simpl never.
#[global] Arguments feq : simpl never.
#[global] Arguments f64_of_Z : simpl never.
#[global] Arguments f64_lit : simpl never.
#[global] Arguments fpow2 : simpl never.
#[global] Arguments fround : simpl never.
#[global] Arguments f64_to_int : simpl never.
#[global] Arguments f64_bits : simpl never.
#[global] Arguments f64_of_bits : simpl never.
#[global] Arguments enc_f64 : simpl never.
#[global] Arguments dec_f64 : simpl never.
#[global] Arguments fmaxval : simpl never.
