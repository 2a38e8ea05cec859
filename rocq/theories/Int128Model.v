(** Model of src/int128_struct_impl.h: 128-bit integers as two 64-bit words, for compilers
    without a 128-bit type; the variant with 32x32->64 multiplications (no MSVC intrinsics).
    Signed arithmetic that would overflow (undefined behaviour) gives [None]. *)
Require Import ZArith List Bool.
From Verif Require Import Word.
Import ListNotations.
Local Open Scope Z_scope.
Local Open Scope c_scope.

(** src/int128_struct.h:7-12 (secp256k1_uint128, also used for secp256k1_int128). *)
Record w128s : Type := mkw { hi128 : Z; lo128 : Z }.
(** Conversion of an integer to int64_t (two's complement, as all the compilers in use). *)
Definition to_i64 (x : Z) : Z := let y := w64 x in if y <? 2 ^ 63 then y else y - 2 ^ 64.
(** A signed 64-bit result. *)
Definition i64 (x : Z) : option Z := if (- 2 ^ 63 <=? x) && (x <? 2 ^ 63) then Some x else None.
Notation "'let?' x := e 'in' f" := (match e with Some x => f | None => None end) (at level 200, x name, e at level 100, f at level 200).

(** src/int128_struct_impl.h:16-19 secp256k1_umul128: (high, low) words. *)
Definition umul128 (a b : Z) : Z * Z :=
  let ll := w64 (w32 a * w32 b) in
  let lh := w64 (w32 a * (b >>! 32)) in
  let hl := w64 ((a >>! 32) * w32 b) in
  let hh := w64 ((a >>! 32) * (b >>! 32)) in
  let mid34 := (ll >>! 32) +! w32 lh +! w32 hl in
  (hh +! (lh >>! 32) +! (hl >>! 32) +! (mid34 >>! 32), (mid34 <<! 32) +! w32 ll).
(** src/int128_struct_impl.h:21-24 secp256k1_mul128: signed high word, low word as returned
    (an int64_t). *)
Definition mul128 (a b : Z) : option (Z * Z) :=
  let ll := w64 (w32 a * w32 b) in
  let? lh := i64 (w32 a * (b >>! 32)) in
  let? hl := i64 ((a >>! 32) * w32 b) in
  let? hh := i64 ((a >>! 32) * (b >>! 32)) in
  let mid34 := (ll >>! 32) +! w32 lh +! w32 hl in
  let? h1 := i64 (hh + (lh >>! 32)) in
  let? h2 := i64 (h1 + (hl >>! 32)) in
  Some (to_i64 (h2 + (mid34 >>! 32)), to_i64 ((mid34 <<! 32) +! w32 ll)).
(** src/int128_struct_impl.h:53-56 secp256k1_u128_load. *)
Definition s_u128_load (hi lo : Z) : w128s := mkw hi lo.
(** src/int128_struct_impl.h:58-60 secp256k1_u128_mul. *)
Definition s_u128_mul (a b : Z) : w128s := let (h, l) := umul128 a b in mkw h l.
(** src/int128_struct_impl.h:62-67 secp256k1_u128_accum_mul. *)
Definition s_u128_accum_mul (r : w128s) (a b : Z) : w128s :=
  let (hi, lo) := umul128 a b in
  let rlo := lo128 r +! lo in
  mkw (hi128 r +! (hi +! b2z (rlo <? lo))) rlo.
(** src/int128_struct_impl.h:69-72 secp256k1_u128_accum_u64. *)
Definition s_u128_accum_u64 (r : w128s) (a : Z) : w128s :=
  let rlo := lo128 r +! a in mkw (hi128 r +! b2z (rlo <? a)) rlo.
(** src/int128_struct_impl.h:77-91 secp256k1_u128_rshift ([n] < 128). *)
Definition s_u128_rshift (r : w128s) (n : Z) : w128s :=
  if n >=? 64 then mkw 0 (hi128 r >>! (n - 64))
  else if n >? 0 then mkw (hi128 r >>! n) ((hi128 r <<! (64 - n)) |! (lo128 r >>! n))
  else r.
(** src/int128_struct_impl.h:93-95 secp256k1_u128_to_u64. *)
Definition s_u128_to_u64 (a : w128s) : Z := lo128 a.
(** src/int128_struct_impl.h:97-99 secp256k1_u128_hi_u64. *)
Definition s_u128_hi_u64 (a : w128s) : Z := hi128 a.
(** src/int128_struct_impl.h:101-104 secp256k1_u128_from_u64. *)
Definition s_u128_from_u64 (a : Z) : w128s := mkw 0 a.
(** src/int128_struct_impl.h:106-110 secp256k1_u128_check_bits ([n] < 128). *)
Definition s_u128_check_bits (r : w128s) (n : Z) : bool :=
  if n >=? 64 then hi128 r >>! (n - 64) =? 0 else (hi128 r =? 0) && (lo128 r >>! n =? 0).
(** src/int128_struct_impl.h:112-115 secp256k1_i128_load ([hi] signed). *)
Definition s_i128_load (hi lo : Z) : w128s := mkw (w64 hi) lo.
(** src/int128_struct_impl.h:117-121 secp256k1_i128_mul. *)
Definition s_i128_mul (a b : Z) : option w128s :=
  let? m := mul128 a b in Some (mkw (w64 (fst m)) (w64 (snd m))).
(** src/int128_struct_impl.h:123-140 secp256k1_i128_accum_mul (the checks of the VERIFY
    build are not modelled). *)
Definition s_i128_accum_mul (r : w128s) (a b : Z) : option w128s :=
  let? m := mul128 a b in
  let lo := w64 (snd m) in
  let rlo := lo128 r +! lo in
  let? hi := i64 (fst m + b2z (rlo <? lo)) in
  Some (mkw (hi128 r +! w64 hi) rlo).
(** src/int128_struct_impl.h:142-158 secp256k1_i128_dissip_mul. *)
Definition s_i128_dissip_mul (r : w128s) (a b : Z) : option w128s :=
  let? m := mul128 a b in
  let lo := w64 (snd m) in
  let? hi := i64 (fst m + b2z (lo128 r <? lo)) in
  Some (mkw (hi128 r -! w64 hi) (lo128 r -! lo)).
(** src/int128_struct_impl.h:160-163 secp256k1_i128_det. *)
Definition s_i128_det (a b c d : Z) : option w128s :=
  let? r := s_i128_mul a d in s_i128_dissip_mul r b c.
(** src/int128_struct_impl.h:168-177 secp256k1_i128_rshift ([n] < 128; >> of a negative
    number is arithmetic, as in all the compilers in use). *)
Definition s_i128_rshift (r : w128s) (n : Z) : w128s :=
  if n >=? 64 then mkw (w64 (to_i64 (hi128 r) >>! 63)) (w64 (to_i64 (hi128 r) >>! (n - 64)))
  else if n >? 0 then mkw (w64 (to_i64 (hi128 r) >>! n)) ((hi128 r <<! (64 - n)) |! (lo128 r >>! n))
  else r.
(** src/int128_struct_impl.h:179-181 secp256k1_i128_to_u64. *)
Definition s_i128_to_u64 (a : w128s) : Z := lo128 a.
(** src/int128_struct_impl.h:183-187 secp256k1_i128_to_i64. *)
Definition s_i128_to_i64 (a : w128s) : Z := to_i64 (s_i128_to_u64 a).
(** src/int128_struct_impl.h:189-192 secp256k1_i128_from_i64. *)
Definition s_i128_from_i64 (a : Z) : w128s := mkw (w64 (a >>! 63)) (w64 a).
(** src/int128_struct_impl.h:194-196 secp256k1_i128_eq_var. *)
Definition s_i128_eq_var (a b : w128s) : bool := (hi128 a =? hi128 b) && (lo128 a =? lo128 b).
(** src/int128_struct_impl.h:198-203 secp256k1_i128_check_pow2 ([n] < 127, [sign] 1 or -1). *)
Definition s_i128_check_pow2 (r : w128s) (n sign : Z) : bool :=
  if n >=? 64 then (hi128 r =? (w64 sign <<! (n - 64))) && (lo128 r =? 0)
  else (hi128 r =? w64 (sign >>! 1)) && (lo128 r =? (w64 sign <<! n)).
