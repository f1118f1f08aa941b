(* Base.v - common vocabulary of the model: outcomes of C++ calls, byte strings,
   little-endian integers.  No property theorems here. *)
From Coq Require Export ZArith List Lia Bool.
From Coq Require Import ZifyBool ZifyNat.
Export ListNotations.
Open Scope Z_scope.

(* Result of running a C++ function: normal return, exception, undefined behaviour
   (signed overflow, bad float-to-int conversion, out-of-bounds access, null dereference). *)
Inductive outcome (A : Type) : Type :=
| Ok (a : A)
| Throw
| UB.
Arguments Ok {A} a.
Arguments Throw {A}.
Arguments UB {A}.

Definition bind {A B} (m : outcome A) (f : A -> outcome B) : outcome B :=
  match m with Ok a => f a | Throw => Throw | UB => UB end.
Notation "'let!' x := m 'in' f" := (bind m (fun x => f))
  (at level 200, x pattern, m at level 100, f at level 200, right associativity).

Definition require (b : bool) : outcome unit := if b then Ok tt else Throw.
Definition defined (b : bool) : outcome unit := if b then Ok tt else UB.

Fixpoint mapM {A B} (f : A -> outcome B) (l : list A) : outcome (list B) :=
  match l with
  | [] => Ok []
  | a :: l' => let! b := f a in let! bs := mapM f l' in Ok (b :: bs)
  end.

(* C++ integer ranges *)
Definition in_range (lo hi v : Z) : bool := (lo <=? v) && (v <=? hi).
Definition INT32_MIN := -2147483648.
Definition INT32_MAX := 2147483647.
Definition UINT32_MAX := 4294967295.
Definition i32 (v : Z) : bool := in_range INT32_MIN INT32_MAX v.
Definition i16 (v : Z) : bool := in_range (-32768) 32767 v.
Definition u8 (v : Z) : bool := in_range 0 255 v.
Definition u16 (v : Z) : bool := in_range 0 65535 v.
Definition u32 (v : Z) : bool := in_range 0 UINT32_MAX v.
Definition u64 (v : Z) : bool := in_range 0 18446744073709551615 v.

(* conversions to a narrower type: modular for unsigned, two's complement for signed *)
Definition to_u (n : Z) (v : Z) : Z := v mod (2 ^ n).
Definition to_s (n : Z) (v : Z) : Z :=
  let m := v mod (2 ^ n) in if m <? 2 ^ (n - 1) then m else m - 2 ^ n.

(* ---- bytes ---- *)
Definition byte := Z.
Definition bytes := list byte.
Definition wf_bytes (b : bytes) : Prop := Forall (fun x => 0 <= x < 256) b.

(* little-endian encoding of the n low bytes of v *)
Fixpoint le_enc (n : nat) (v : Z) : bytes :=
  match n with
  | O => []
  | S n' => (v mod 256) :: le_enc n' (v / 256)
  end.
(* little-endian value of a byte string *)
Fixpoint le_dec (b : bytes) : Z :=
  match b with
  | [] => 0
  | x :: b' => x + 256 * le_dec b'
  end.

Definition enc_u8 v := le_enc 1 v.
Definition enc_u16 v := le_enc 2 v.
Definition enc_u32 v := le_enc 4 v.
Definition enc_u64 v := le_enc 8 v.
Definition enc_i16 v := le_enc 2 v.
Definition enc_i32 v := le_enc 4 v.

(* take exactly n bytes; a short read is a failed stream *)
Definition take_bytes (n : nat) (b : bytes) : option (bytes * bytes) :=
  if (n <=? length b)%nat then Some (firstn n b, skipn n b) else None.

Definition dec_u (n : nat) (b : bytes) : option (Z * bytes) :=
  match take_bytes n b with Some (x, r) => Some (le_dec x, r) | None => None end.
Definition dec_s (n : nat) (b : bytes) : option (Z * bytes) :=
  match take_bytes n b with
  | Some (x, r) => Some (to_s (8 * Z.of_nat n) (le_dec x), r)
  | None => None
  end.

Notation "'let?' x := m 'in' f" := (match m with Some x => f | None => None end)
  (at level 200, x pattern, m at level 100, f at level 200, right associativity).

(* n zero bytes *)
Definition zeros (n : nat) : bytes := repeat 0 n.

#[global] Arguments Z.add : simpl never.
#[global] Arguments Z.sub : simpl never.
#[global] Arguments Z.mul : simpl never.
#[global] Arguments Z.div : simpl never.
#[global] Arguments Z.modulo : simpl never.
#[global] Arguments Z.quot : simpl never.
#[global] Arguments Z.pow : simpl never.
#[global] Arguments Z.opp : simpl never.
#[global] Arguments Z.of_nat : simpl never.
#[global] Arguments Z.to_nat : simpl never.
