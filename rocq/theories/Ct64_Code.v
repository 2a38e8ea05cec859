(** The C functions of the 64-bit build that handle secrets.
    Written by tools/ct.py from the source text after macro expansion; see CtLang.v for the language. *)
Require Import ZArith List String.
From Verif Require Import CtLang.
Import ListNotations.
Local Open Scope string_scope.
Local Open Scope list_scope.
Local Open Scope Z_scope.

(** src/util.h:416-425 secp256k1_read_be64 *)
Definition c64_read_be64 : func := mkfunc "secp256k1_read_be64" [("p", false)] true
  (Return (Op2 "|" (Op2 "|" (Op2 "|" (Op2 "|" (Op2 "|" (Op2 "|" (Op2 "|" (Op2 "<<" (Op1 "(uint64_t)" (Load Sec (Op2 "[]" (Var "p") (Num 0)))) (Num 56)) (Op2 "<<" (Op1 "(uint64_t)" (Load Sec (Op2 "[]" (Var "p") (Num 1)))) (Num 48))) (Op2 "<<" (Op1 "(uint64_t)" (Load Sec (Op2 "[]" (Var "p") (Num 2)))) (Num 40))) (Op2 "<<" (Op1 "(uint64_t)" (Load Sec (Op2 "[]" (Var "p") (Num 3)))) (Num 32))) (Op2 "<<" (Op1 "(uint64_t)" (Load Sec (Op2 "[]" (Var "p") (Num 4)))) (Num 24))) (Op2 "<<" (Op1 "(uint64_t)" (Load Sec (Op2 "[]" (Var "p") (Num 5)))) (Num 16))) (Op2 "<<" (Op1 "(uint64_t)" (Load Sec (Op2 "[]" (Var "p") (Num 6)))) (Num 8))) (Op1 "(uint64_t)" (Load Sec (Op2 "[]" (Var "p") (Num 7)))))).
(** src/scalar_4x64_impl.h:62-72 secp256k1_scalar_check_overflow *)
Definition c64_scalar_check_overflow : func := mkfunc "secp256k1_scalar_check_overflow" [("a", false)] true
  (seq [Assign "yes" (Num 0);
      Assign "no" (Num 0);
      Assign "no" (Op2 "|" (Var "no") (Op2 "<" (Load Sec (Op2 "[]" (Op1 ".d" (Var "a")) (Num 3))) (Op1 "(uint64_t)" (Num 18446744073709551615))));
      Assign "no" (Op2 "|" (Var "no") (Op2 "<" (Load Sec (Op2 "[]" (Op1 ".d" (Var "a")) (Num 2))) (Op1 "(uint64_t)" (Num 18446744073709551614))));
      Assign "yes" (Op2 "|" (Var "yes") (Op2 "&" (Op2 ">" (Load Sec (Op2 "[]" (Op1 ".d" (Var "a")) (Num 2))) (Op1 "(uint64_t)" (Num 18446744073709551614))) (Op1 "~" (Var "no"))));
      Assign "no" (Op2 "|" (Var "no") (Op2 "<" (Load Sec (Op2 "[]" (Op1 ".d" (Var "a")) (Num 1))) (Op1 "(uint64_t)" (Num 13451932020343611451))));
      Assign "yes" (Op2 "|" (Var "yes") (Op2 "&" (Op2 ">" (Load Sec (Op2 "[]" (Op1 ".d" (Var "a")) (Num 1))) (Op1 "(uint64_t)" (Num 13451932020343611451))) (Op1 "~" (Var "no"))));
      Assign "yes" (Op2 "|" (Var "yes") (Op2 "&" (Op2 ">=" (Load Sec (Op2 "[]" (Op1 ".d" (Var "a")) (Num 0))) (Op1 "(uint64_t)" (Num 13822214165235122497))) (Op1 "~" (Var "no"))));
      Return (Var "yes")]).
(** src/int128_native_impl.h:36-38 secp256k1_u128_from_u64 *)
Definition c64_u128_from_u64 : func := mkfunc "secp256k1_u128_from_u64" [("r", false); ("a", true)] false
  (Store Sec (Var "r") (Var "a")).
(** src/int128_native_impl.h:19-21 secp256k1_u128_accum_u64 *)
Definition c64_u128_accum_u64 : func := mkfunc "secp256k1_u128_accum_u64" [("r", false); ("a", true)] false
  (Store Sec (Var "r") (Op2 "+" (Load Sec (Var "r")) (Var "a"))).
(** src/int128_native_impl.h:28-30 secp256k1_u128_to_u64 *)
Definition c64_u128_to_u64 : func := mkfunc "secp256k1_u128_to_u64" [("a", false)] true
  (Return (Op1 "(uint64_t)" (Load Sec (Var "a")))).
(** src/int128_native_impl.h:23-26 secp256k1_u128_rshift *)
Definition c64_u128_rshift : func := mkfunc "secp256k1_u128_rshift" [("r", false); ("n", false)] false
  (Store Sec (Var "r") (Op2 ">>" (Load Sec (Var "r")) (Var "n"))).
(** src/scalar_4x64_impl.h:74-92 secp256k1_scalar_reduce *)
Definition c64_scalar_reduce : func := mkfunc "secp256k1_scalar_reduce" [("r", false); ("overflow", true)] true
  (seq [Call "_" "secp256k1_u128_from_u64" [Addr "t"; Load Sec (Op2 "[]" (Op1 ".d" (Var "r")) (Num 0))];
      Call "_" "secp256k1_u128_accum_u64" [Addr "t"; Op2 "*" (Var "overflow") (Op2 "+" (Op1 "~" (Op1 "(uint64_t)" (Num 13822214165235122497))) (Num 1))];
      Call "t1" "secp256k1_u128_to_u64" [Addr "t"];
      Store Sec (Op2 "[]" (Op1 ".d" (Var "r")) (Num 0)) (Var "t1");
      Call "_" "secp256k1_u128_rshift" [Addr "t"; Num 64];
      Call "_" "secp256k1_u128_accum_u64" [Addr "t"; Load Sec (Op2 "[]" (Op1 ".d" (Var "r")) (Num 1))];
      Call "_" "secp256k1_u128_accum_u64" [Addr "t"; Op2 "*" (Var "overflow") (Op1 "~" (Op1 "(uint64_t)" (Num 13451932020343611451)))];
      Call "t2" "secp256k1_u128_to_u64" [Addr "t"];
      Store Sec (Op2 "[]" (Op1 ".d" (Var "r")) (Num 1)) (Var "t2");
      Call "_" "secp256k1_u128_rshift" [Addr "t"; Num 64];
      Call "_" "secp256k1_u128_accum_u64" [Addr "t"; Load Sec (Op2 "[]" (Op1 ".d" (Var "r")) (Num 2))];
      Call "_" "secp256k1_u128_accum_u64" [Addr "t"; Op2 "*" (Var "overflow") (Num 1)];
      Call "t3" "secp256k1_u128_to_u64" [Addr "t"];
      Store Sec (Op2 "[]" (Op1 ".d" (Var "r")) (Num 2)) (Var "t3");
      Call "_" "secp256k1_u128_rshift" [Addr "t"; Num 64];
      Call "_" "secp256k1_u128_accum_u64" [Addr "t"; Load Sec (Op2 "[]" (Op1 ".d" (Var "r")) (Num 3))];
      Call "t4" "secp256k1_u128_to_u64" [Addr "t"];
      Store Sec (Op2 "[]" (Op1 ".d" (Var "r")) (Num 3)) (Var "t4");
      Return (Var "overflow")]).
(** src/scalar_4x64_impl.h:144-156 secp256k1_scalar_set_b32 *)
Definition c64_scalar_set_b32 : func := mkfunc "secp256k1_scalar_set_b32" [("r", false); ("b32", false); ("overflow", false)] false
  (seq [Call "t1" "secp256k1_read_be64" [Op2 "[]" (Var "b32") (Num 24)];
      Store Sec (Op2 "[]" (Op1 ".d" (Var "r")) (Num 0)) (Var "t1");
      Call "t2" "secp256k1_read_be64" [Op2 "[]" (Var "b32") (Num 16)];
      Store Sec (Op2 "[]" (Op1 ".d" (Var "r")) (Num 1)) (Var "t2");
      Call "t3" "secp256k1_read_be64" [Op2 "[]" (Var "b32") (Num 8)];
      Store Sec (Op2 "[]" (Op1 ".d" (Var "r")) (Num 2)) (Var "t3");
      Call "t4" "secp256k1_read_be64" [Op2 "[]" (Var "b32") (Num 0)];
      Store Sec (Op2 "[]" (Op1 ".d" (Var "r")) (Num 3)) (Var "t4");
      Call "t5" "secp256k1_scalar_check_overflow" [Var "r"];
      Call "t6" "secp256k1_scalar_reduce" [Var "r"; Var "t5"];
      Assign "over" (Var "t6");
      If (Var "overflow") (Store Sec (Var "overflow") (Var "over")) (Skip)]).
(** src/scalar_4x64_impl.h:167-171 secp256k1_scalar_is_zero *)
Definition c64_scalar_is_zero : func := mkfunc "secp256k1_scalar_is_zero" [("a", false)] true
  (Return (Op2 "==" (Op2 "|" (Op2 "|" (Op2 "|" (Load Sec (Op2 "[]" (Op1 ".d" (Var "a")) (Num 0))) (Load Sec (Op2 "[]" (Op1 ".d" (Var "a")) (Num 1)))) (Load Sec (Op2 "[]" (Op1 ".d" (Var "a")) (Num 2)))) (Load Sec (Op2 "[]" (Op1 ".d" (Var "a")) (Num 3)))) (Num 0))).
(** src/scalar_impl.h:34-40 secp256k1_scalar_set_b32_seckey *)
Definition c64_scalar_set_b32_seckey : func := mkfunc "secp256k1_scalar_set_b32_seckey" [("r", false); ("bin", false)] true
  (seq [Call "_" "secp256k1_scalar_set_b32" [Var "r"; Var "bin"; Addr "overflow"];
      Call "t1" "secp256k1_scalar_is_zero" [Var "r"];
      Return (Op2 "&" (Op1 "!" (Load Sec (Addr "overflow"))) (Op1 "!" (Var "t1")))]).
(** src/scalar_impl.h:30-32 secp256k1_scalar_clear *)
Definition c64_scalar_clear : func := mkfunc "secp256k1_scalar_clear" [("r", false)] false
  (Prim "secp256k1_memclear" [Var "r"; Op0 "sizeof ( secp256k1_scalar )"]).
(** src/secp256k1.c:580-589 secp256k1_ec_seckey_verify *)
Definition c64_ec_seckey_verify : func := mkfunc "secp256k1_ec_seckey_verify" [("ctx", false); ("seckey", false)] true
  (seq [If (Op1 "!" (Op2 "!=" (Var "seckey") (Num 0))) (seq [Prim "callback" [];
      Return (Num 0)]) (Skip);
      Call "t1" "secp256k1_scalar_set_b32_seckey" [Addr "sec"; Var "seckey"];
      Assign "ret" (Var "t1");
      Call "_" "secp256k1_scalar_clear" [Addr "sec"];
      Return (Var "ret")]).
(** src/ecmult_gen_impl.h:22-24 secp256k1_ecmult_gen_context_is_built *)
Definition c64_ecmult_gen_context_is_built : func := mkfunc "secp256k1_ecmult_gen_context_is_built" [("ctx", false)] false
  (Return (Load Pub (Op1 ".built" (Var "ctx")))).
(** src/scalar_4x64_impl.h:911-925 secp256k1_scalar_cmov@SP *)
Definition c64_scalar_cmov__SP : func := mkfunc "secp256k1_scalar_cmov@SP" [("r", false); ("a", false); ("flag", true)] false
  (seq [Assign "vflag" (Var "flag");
      Assign "mask0" (Op2 "+" (Var "vflag") (Op1 "~" (Op1 "(uint64_t)" (Num 0))));
      Assign "mask1" (Op1 "~" (Var "mask0"));
      Store Sec (Op2 "[]" (Op1 ".d" (Var "r")) (Num 0)) (Op2 "|" (Op2 "&" (Load Sec (Op2 "[]" (Op1 ".d" (Var "r")) (Num 0))) (Var "mask0")) (Op2 "&" (Load Pub (Op2 "[]" (Op1 ".d" (Var "a")) (Num 0))) (Var "mask1")));
      Store Sec (Op2 "[]" (Op1 ".d" (Var "r")) (Num 1)) (Op2 "|" (Op2 "&" (Load Sec (Op2 "[]" (Op1 ".d" (Var "r")) (Num 1))) (Var "mask0")) (Op2 "&" (Load Pub (Op2 "[]" (Op1 ".d" (Var "a")) (Num 1))) (Var "mask1")));
      Store Sec (Op2 "[]" (Op1 ".d" (Var "r")) (Num 2)) (Op2 "|" (Op2 "&" (Load Sec (Op2 "[]" (Op1 ".d" (Var "r")) (Num 2))) (Var "mask0")) (Op2 "&" (Load Pub (Op2 "[]" (Op1 ".d" (Var "a")) (Num 2))) (Var "mask1")));
      Store Sec (Op2 "[]" (Op1 ".d" (Var "r")) (Num 3)) (Op2 "|" (Op2 "&" (Load Sec (Op2 "[]" (Op1 ".d" (Var "r")) (Num 3))) (Var "mask0")) (Op2 "&" (Load Pub (Op2 "[]" (Op1 ".d" (Var "a")) (Num 3))) (Var "mask1")))]).
(** src/scalar_4x64_impl.h:94-118 secp256k1_scalar_add *)
Definition c64_scalar_add : func := mkfunc "secp256k1_scalar_add" [("r", false); ("a", false); ("b", false)] true
  (seq [Call "_" "secp256k1_u128_from_u64" [Addr "t"; Load Sec (Op2 "[]" (Op1 ".d" (Var "a")) (Num 0))];
      Call "_" "secp256k1_u128_accum_u64" [Addr "t"; Load Sec (Op2 "[]" (Op1 ".d" (Var "b")) (Num 0))];
      Call "t1" "secp256k1_u128_to_u64" [Addr "t"];
      Store Sec (Op2 "[]" (Op1 ".d" (Var "r")) (Num 0)) (Var "t1");
      Call "_" "secp256k1_u128_rshift" [Addr "t"; Num 64];
      Call "_" "secp256k1_u128_accum_u64" [Addr "t"; Load Sec (Op2 "[]" (Op1 ".d" (Var "a")) (Num 1))];
      Call "_" "secp256k1_u128_accum_u64" [Addr "t"; Load Sec (Op2 "[]" (Op1 ".d" (Var "b")) (Num 1))];
      Call "t2" "secp256k1_u128_to_u64" [Addr "t"];
      Store Sec (Op2 "[]" (Op1 ".d" (Var "r")) (Num 1)) (Var "t2");
      Call "_" "secp256k1_u128_rshift" [Addr "t"; Num 64];
      Call "_" "secp256k1_u128_accum_u64" [Addr "t"; Load Sec (Op2 "[]" (Op1 ".d" (Var "a")) (Num 2))];
      Call "_" "secp256k1_u128_accum_u64" [Addr "t"; Load Sec (Op2 "[]" (Op1 ".d" (Var "b")) (Num 2))];
      Call "t3" "secp256k1_u128_to_u64" [Addr "t"];
      Store Sec (Op2 "[]" (Op1 ".d" (Var "r")) (Num 2)) (Var "t3");
      Call "_" "secp256k1_u128_rshift" [Addr "t"; Num 64];
      Call "_" "secp256k1_u128_accum_u64" [Addr "t"; Load Sec (Op2 "[]" (Op1 ".d" (Var "a")) (Num 3))];
      Call "_" "secp256k1_u128_accum_u64" [Addr "t"; Load Sec (Op2 "[]" (Op1 ".d" (Var "b")) (Num 3))];
      Call "t4" "secp256k1_u128_to_u64" [Addr "t"];
      Store Sec (Op2 "[]" (Op1 ".d" (Var "r")) (Num 3)) (Var "t4");
      Call "_" "secp256k1_u128_rshift" [Addr "t"; Num 64];
      Call "t5" "secp256k1_u128_to_u64" [Addr "t"];
      Call "t6" "secp256k1_scalar_check_overflow" [Var "r"];
      Assign "overflow" (Op2 "+" (Var "t5") (Var "t6"));
      Call "_" "secp256k1_scalar_reduce" [Var "r"; Var "overflow"];
      Return (Var "overflow")]).
(** src/scalar_4x64_impl.h:41-47 secp256k1_scalar_get_bits_limb32 *)
Definition c64_scalar_get_bits_limb32 : func := mkfunc "secp256k1_scalar_get_bits_limb32" [("a", false); ("offset", false); ("count", false)] true
  (Return (Op2 "&" (Op2 ">>" (Load Sec (Op2 "[]" (Op1 ".d" (Var "a")) (Op2 ">>" (Var "offset") (Num 6)))) (Op2 "&" (Var "offset") (Num 63))) (Op2 ">>" (Num 4294967295) (Op2 "-" (Num 32) (Var "count"))))).
(** src/util.h:440-449 secp256k1_rotr32 *)
Definition c64_rotr32 : func := mkfunc "secp256k1_rotr32" [("x", true); ("by", false)] true
  (seq [Assign "mask" (Op2 "-" (Op2 "*" (Num 8) (Op0 "sizeof ( x )")) (Num 1));
      Return (Op2 "|" (Op2 ">>" (Var "x") (Op2 "&" (Var "by") (Var "mask"))) (Op2 "<<" (Var "x") (Op2 "&" (Op1 "-" (Var "by")) (Var "mask"))))]).
(** src/field_5x52_impl.h:416-426 secp256k1_fe_storage_cmov@SP *)
Definition c64_fe_storage_cmov__SP : func := mkfunc "secp256k1_fe_storage_cmov@SP" [("r", false); ("a", false); ("flag", true)] false
  (seq [Assign "vflag" (Var "flag");
      Assign "mask0" (Op2 "+" (Var "vflag") (Op1 "~" (Op1 "(uint64_t)" (Num 0))));
      Assign "mask1" (Op1 "~" (Var "mask0"));
      Store Sec (Op2 "[]" (Op1 ".n" (Var "r")) (Num 0)) (Op2 "|" (Op2 "&" (Load Sec (Op2 "[]" (Op1 ".n" (Var "r")) (Num 0))) (Var "mask0")) (Op2 "&" (Load Pub (Op2 "[]" (Op1 ".n" (Var "a")) (Num 0))) (Var "mask1")));
      Store Sec (Op2 "[]" (Op1 ".n" (Var "r")) (Num 1)) (Op2 "|" (Op2 "&" (Load Sec (Op2 "[]" (Op1 ".n" (Var "r")) (Num 1))) (Var "mask0")) (Op2 "&" (Load Pub (Op2 "[]" (Op1 ".n" (Var "a")) (Num 1))) (Var "mask1")));
      Store Sec (Op2 "[]" (Op1 ".n" (Var "r")) (Num 2)) (Op2 "|" (Op2 "&" (Load Sec (Op2 "[]" (Op1 ".n" (Var "r")) (Num 2))) (Var "mask0")) (Op2 "&" (Load Pub (Op2 "[]" (Op1 ".n" (Var "a")) (Num 2))) (Var "mask1")));
      Store Sec (Op2 "[]" (Op1 ".n" (Var "r")) (Num 3)) (Op2 "|" (Op2 "&" (Load Sec (Op2 "[]" (Op1 ".n" (Var "r")) (Num 3))) (Var "mask0")) (Op2 "&" (Load Pub (Op2 "[]" (Op1 ".n" (Var "a")) (Num 3))) (Var "mask1")))]).
(** src/group_impl.h:910-913 secp256k1_ge_storage_cmov@SP *)
Definition c64_ge_storage_cmov__SP : func := mkfunc "secp256k1_ge_storage_cmov@SP" [("r", false); ("a", false); ("flag", true)] false
  (seq [Call "_" "secp256k1_fe_storage_cmov@SP" [Op1 ".x" (Var "r"); Op1 ".x" (Var "a"); Var "flag"];
      Call "_" "secp256k1_fe_storage_cmov@SP" [Op1 ".y" (Var "r"); Op1 ".y" (Var "a"); Var "flag"]]).
(** src/field_5x52_impl.h:435-441 secp256k1_fe_impl_from_storage *)
Definition c64_fe_impl_from_storage : func := mkfunc "secp256k1_fe_impl_from_storage" [("r", false); ("a", false)] false
  (seq [Store Sec (Op2 "[]" (Op1 ".n" (Var "r")) (Num 0)) (Op2 "&" (Load Sec (Op2 "[]" (Op1 ".n" (Var "a")) (Num 0))) (Num 4503599627370495));
      Store Sec (Op2 "[]" (Op1 ".n" (Var "r")) (Num 1)) (Op2 "|" (Op2 ">>" (Load Sec (Op2 "[]" (Op1 ".n" (Var "a")) (Num 0))) (Num 52)) (Op2 "&" (Op2 "<<" (Load Sec (Op2 "[]" (Op1 ".n" (Var "a")) (Num 1))) (Num 12)) (Num 4503599627370495)));
      Store Sec (Op2 "[]" (Op1 ".n" (Var "r")) (Num 2)) (Op2 "|" (Op2 ">>" (Load Sec (Op2 "[]" (Op1 ".n" (Var "a")) (Num 1))) (Num 40)) (Op2 "&" (Op2 "<<" (Load Sec (Op2 "[]" (Op1 ".n" (Var "a")) (Num 2))) (Num 24)) (Num 4503599627370495)));
      Store Sec (Op2 "[]" (Op1 ".n" (Var "r")) (Num 3)) (Op2 "|" (Op2 ">>" (Load Sec (Op2 "[]" (Op1 ".n" (Var "a")) (Num 2))) (Num 28)) (Op2 "&" (Op2 "<<" (Load Sec (Op2 "[]" (Op1 ".n" (Var "a")) (Num 3))) (Num 36)) (Num 4503599627370495)));
      Store Sec (Op2 "[]" (Op1 ".n" (Var "r")) (Num 4)) (Op2 ">>" (Load Sec (Op2 "[]" (Op1 ".n" (Var "a")) (Num 3))) (Num 16))]).
(** src/group_impl.h:890-896 secp256k1_ge_from_storage *)
Definition c64_ge_from_storage : func := mkfunc "secp256k1_ge_from_storage" [("r", false); ("a", false)] false
  (seq [Call "_" "secp256k1_fe_impl_from_storage" [Op1 ".x" (Var "r"); Op1 ".x" (Var "a")];
      Call "_" "secp256k1_fe_impl_from_storage" [Op1 ".y" (Var "r"); Op1 ".y" (Var "a")];
      Store Sec (Op1 ".infinity" (Var "r")) (Num 0)]).
(** src/field_5x52_impl.h:306-319 secp256k1_fe_impl_negate_unchecked *)
Definition c64_fe_impl_negate_unchecked : func := mkfunc "secp256k1_fe_impl_negate_unchecked" [("r", false); ("a", false); ("m", false)] false
  (seq [Store Sec (Op2 "[]" (Op1 ".n" (Var "r")) (Num 0)) (Op2 "-" (Op2 "*" (Op2 "*" (Num 4503595332402223) (Num 2)) (Op2 "+" (Var "m") (Num 1))) (Load Sec (Op2 "[]" (Op1 ".n" (Var "a")) (Num 0))));
      Store Sec (Op2 "[]" (Op1 ".n" (Var "r")) (Num 1)) (Op2 "-" (Op2 "*" (Op2 "*" (Num 4503599627370495) (Num 2)) (Op2 "+" (Var "m") (Num 1))) (Load Sec (Op2 "[]" (Op1 ".n" (Var "a")) (Num 1))));
      Store Sec (Op2 "[]" (Op1 ".n" (Var "r")) (Num 2)) (Op2 "-" (Op2 "*" (Op2 "*" (Num 4503599627370495) (Num 2)) (Op2 "+" (Var "m") (Num 1))) (Load Sec (Op2 "[]" (Op1 ".n" (Var "a")) (Num 2))));
      Store Sec (Op2 "[]" (Op1 ".n" (Var "r")) (Num 3)) (Op2 "-" (Op2 "*" (Op2 "*" (Num 4503599627370495) (Num 2)) (Op2 "+" (Var "m") (Num 1))) (Load Sec (Op2 "[]" (Op1 ".n" (Var "a")) (Num 3))));
      Store Sec (Op2 "[]" (Op1 ".n" (Var "r")) (Num 4)) (Op2 "-" (Op2 "*" (Op2 "*" (Num 281474976710655) (Num 2)) (Op2 "+" (Var "m") (Num 1))) (Load Sec (Op2 "[]" (Op1 ".n" (Var "a")) (Num 4))))]).
(** src/field_5x52_impl.h:349-360 secp256k1_fe_impl_cmov *)
Definition c64_fe_impl_cmov : func := mkfunc "secp256k1_fe_impl_cmov" [("r", false); ("a", false); ("flag", true)] false
  (seq [Assign "vflag" (Var "flag");
      Assign "mask0" (Op2 "+" (Var "vflag") (Op1 "~" (Op1 "(uint64_t)" (Num 0))));
      Assign "mask1" (Op1 "~" (Var "mask0"));
      Store Sec (Op2 "[]" (Op1 ".n" (Var "r")) (Num 0)) (Op2 "|" (Op2 "&" (Load Sec (Op2 "[]" (Op1 ".n" (Var "r")) (Num 0))) (Var "mask0")) (Op2 "&" (Load Sec (Op2 "[]" (Op1 ".n" (Var "a")) (Num 0))) (Var "mask1")));
      Store Sec (Op2 "[]" (Op1 ".n" (Var "r")) (Num 1)) (Op2 "|" (Op2 "&" (Load Sec (Op2 "[]" (Op1 ".n" (Var "r")) (Num 1))) (Var "mask0")) (Op2 "&" (Load Sec (Op2 "[]" (Op1 ".n" (Var "a")) (Num 1))) (Var "mask1")));
      Store Sec (Op2 "[]" (Op1 ".n" (Var "r")) (Num 2)) (Op2 "|" (Op2 "&" (Load Sec (Op2 "[]" (Op1 ".n" (Var "r")) (Num 2))) (Var "mask0")) (Op2 "&" (Load Sec (Op2 "[]" (Op1 ".n" (Var "a")) (Num 2))) (Var "mask1")));
      Store Sec (Op2 "[]" (Op1 ".n" (Var "r")) (Num 3)) (Op2 "|" (Op2 "&" (Load Sec (Op2 "[]" (Op1 ".n" (Var "r")) (Num 3))) (Var "mask0")) (Op2 "&" (Load Sec (Op2 "[]" (Op1 ".n" (Var "a")) (Num 3))) (Var "mask1")));
      Store Sec (Op2 "[]" (Op1 ".n" (Var "r")) (Num 4)) (Op2 "|" (Op2 "&" (Load Sec (Op2 "[]" (Op1 ".n" (Var "r")) (Num 4))) (Var "mask0")) (Op2 "&" (Load Sec (Op2 "[]" (Op1 ".n" (Var "a")) (Num 4))) (Var "mask1")))]).
(** src/field_5x52_impl.h:201-204 secp256k1_fe_impl_set_int *)
Definition c64_fe_impl_set_int : func := mkfunc "secp256k1_fe_impl_set_int" [("r", false); ("a", false)] false
  (seq [Store Sec (Op2 "[]" (Op1 ".n" (Var "r")) (Num 0)) (Var "a");
      Store Sec (Op2 "[]" (Op1 ".n" (Var "r")) (Num 4)) (Num 0);
      Store Sec (Op2 "[]" (Op1 ".n" (Var "r")) (Num 3)) (Load Sec (Op2 "[]" (Op1 ".n" (Var "r")) (Num 4)));
      Store Sec (Op2 "[]" (Op1 ".n" (Var "r")) (Num 2)) (Load Sec (Op2 "[]" (Op1 ".n" (Var "r")) (Num 3)));
      Store Sec (Op2 "[]" (Op1 ".n" (Var "r")) (Num 1)) (Load Sec (Op2 "[]" (Op1 ".n" (Var "r")) (Num 2)))]).
(** src/group_impl.h:367-376 secp256k1_gej_set_ge *)
Definition c64_gej_set_ge : func := mkfunc "secp256k1_gej_set_ge" [("r", false); ("a", false)] false
  (seq [Store Sec (Op1 ".infinity" (Var "r")) (Load Sec (Op1 ".infinity" (Var "a")));
      Prim "copy" [Op1 ".x" (Var "r"); Op1 ".x" (Var "a")];
      Prim "copy" [Op1 ".y" (Var "r"); Op1 ".y" (Var "a")];
      Call "_" "secp256k1_fe_impl_set_int" [Op1 ".z" (Var "r"); Num 1]]).
(** src/int128_native_impl.h:11-13 secp256k1_u128_mul *)
Definition c64_u128_mul : func := mkfunc "secp256k1_u128_mul" [("r", false); ("a", true); ("b", true)] false
  (Store Sec (Var "r") (Op2 "*" (Op1 "(uint128_t)" (Var "a")) (Var "b"))).
(** src/int128_native_impl.h:15-17 secp256k1_u128_accum_mul *)
Definition c64_u128_accum_mul : func := mkfunc "secp256k1_u128_accum_mul" [("r", false); ("a", true); ("b", true)] false
  (Store Sec (Var "r") (Op2 "+" (Load Sec (Var "r")) (Op2 "*" (Op1 "(uint128_t)" (Var "a")) (Var "b")))).
(** src/field_5x52_int128_impl.h:154-272 secp256k1_fe_sqr_inner *)
Definition c64_fe_sqr_inner : func := mkfunc "secp256k1_fe_sqr_inner" [("r", false); ("a", false)] false
  (seq [Assign "a0" (Load Sec (Op2 "[]" (Var "a") (Num 0)));
      Assign "a1" (Load Sec (Op2 "[]" (Var "a") (Num 1)));
      Assign "a2" (Load Sec (Op2 "[]" (Var "a") (Num 2)));
      Assign "a3" (Load Sec (Op2 "[]" (Var "a") (Num 3)));
      Assign "a4" (Load Sec (Op2 "[]" (Var "a") (Num 4)));
      Assign "M" (Num 4503599627370495);
      Assign "R" (Num 68719492368);
      Call "_" "secp256k1_u128_mul" [Addr "d"; Op2 "*" (Var "a0") (Num 2); Var "a3"];
      Call "_" "secp256k1_u128_accum_mul" [Addr "d"; Op2 "*" (Var "a1") (Num 2); Var "a2"];
      Call "_" "secp256k1_u128_mul" [Addr "c"; Var "a4"; Var "a4"];
      Call "t1" "secp256k1_u128_to_u64" [Addr "c"];
      Call "_" "secp256k1_u128_accum_mul" [Addr "d"; Var "R"; Var "t1"];
      Call "_" "secp256k1_u128_rshift" [Addr "c"; Num 64];
      Call "t2" "secp256k1_u128_to_u64" [Addr "d"];
      Assign "t3" (Op2 "&" (Var "t2") (Var "M"));
      Call "_" "secp256k1_u128_rshift" [Addr "d"; Num 52];
      Assign "a4" (Op2 "*" (Var "a4") (Num 2));
      Call "_" "secp256k1_u128_accum_mul" [Addr "d"; Var "a0"; Var "a4"];
      Call "_" "secp256k1_u128_accum_mul" [Addr "d"; Op2 "*" (Var "a1") (Num 2); Var "a3"];
      Call "_" "secp256k1_u128_accum_mul" [Addr "d"; Var "a2"; Var "a2"];
      Call "t3" "secp256k1_u128_to_u64" [Addr "c"];
      Call "_" "secp256k1_u128_accum_mul" [Addr "d"; Op2 "<<" (Var "R") (Num 12); Var "t3"];
      Call "t4" "secp256k1_u128_to_u64" [Addr "d"];
      Assign "t4" (Op2 "&" (Var "t4") (Var "M"));
      Call "_" "secp256k1_u128_rshift" [Addr "d"; Num 52];
      Assign "tx" (Op2 ">>" (Var "t4") (Num 48));
      Assign "t4" (Op2 "&" (Var "t4") (Op2 ">>" (Var "M") (Num 4)));
      Call "_" "secp256k1_u128_mul" [Addr "c"; Var "a0"; Var "a0"];
      Call "_" "secp256k1_u128_accum_mul" [Addr "d"; Var "a1"; Var "a4"];
      Call "_" "secp256k1_u128_accum_mul" [Addr "d"; Op2 "*" (Var "a2") (Num 2); Var "a3"];
      Call "t5" "secp256k1_u128_to_u64" [Addr "d"];
      Assign "u0" (Op2 "&" (Var "t5") (Var "M"));
      Call "_" "secp256k1_u128_rshift" [Addr "d"; Num 52];
      Assign "u0" (Op2 "|" (Op2 "<<" (Var "u0") (Num 4)) (Var "tx"));
      Call "_" "secp256k1_u128_accum_mul" [Addr "c"; Var "u0"; Op2 ">>" (Var "R") (Num 4)];
      Call "t6" "secp256k1_u128_to_u64" [Addr "c"];
      Store Sec (Op2 "[]" (Var "r") (Num 0)) (Op2 "&" (Var "t6") (Var "M"));
      Call "_" "secp256k1_u128_rshift" [Addr "c"; Num 52];
      Assign "a0" (Op2 "*" (Var "a0") (Num 2));
      Call "_" "secp256k1_u128_accum_mul" [Addr "c"; Var "a0"; Var "a1"];
      Call "_" "secp256k1_u128_accum_mul" [Addr "d"; Var "a2"; Var "a4"];
      Call "_" "secp256k1_u128_accum_mul" [Addr "d"; Var "a3"; Var "a3"];
      Call "t7" "secp256k1_u128_to_u64" [Addr "d"];
      Call "_" "secp256k1_u128_accum_mul" [Addr "c"; Op2 "&" (Var "t7") (Var "M"); Var "R"];
      Call "_" "secp256k1_u128_rshift" [Addr "d"; Num 52];
      Call "t8" "secp256k1_u128_to_u64" [Addr "c"];
      Store Sec (Op2 "[]" (Var "r") (Num 1)) (Op2 "&" (Var "t8") (Var "M"));
      Call "_" "secp256k1_u128_rshift" [Addr "c"; Num 52];
      Call "_" "secp256k1_u128_accum_mul" [Addr "c"; Var "a0"; Var "a2"];
      Call "_" "secp256k1_u128_accum_mul" [Addr "c"; Var "a1"; Var "a1"];
      Call "_" "secp256k1_u128_accum_mul" [Addr "d"; Var "a3"; Var "a4"];
      Call "t9" "secp256k1_u128_to_u64" [Addr "d"];
      Call "_" "secp256k1_u128_accum_mul" [Addr "c"; Var "R"; Var "t9"];
      Call "_" "secp256k1_u128_rshift" [Addr "d"; Num 64];
      Call "t10" "secp256k1_u128_to_u64" [Addr "c"];
      Store Sec (Op2 "[]" (Var "r") (Num 2)) (Op2 "&" (Var "t10") (Var "M"));
      Call "_" "secp256k1_u128_rshift" [Addr "c"; Num 52];
      Call "t11" "secp256k1_u128_to_u64" [Addr "d"];
      Call "_" "secp256k1_u128_accum_mul" [Addr "c"; Op2 "<<" (Var "R") (Num 12); Var "t11"];
      Call "_" "secp256k1_u128_accum_u64" [Addr "c"; Var "t3"];
      Call "t12" "secp256k1_u128_to_u64" [Addr "c"];
      Store Sec (Op2 "[]" (Var "r") (Num 3)) (Op2 "&" (Var "t12") (Var "M"));
      Call "_" "secp256k1_u128_rshift" [Addr "c"; Num 52];
      Call "t13" "secp256k1_u128_to_u64" [Addr "c"];
      Store Sec (Op2 "[]" (Var "r") (Num 4)) (Op2 "+" (Var "t13") (Var "t4"))]).
(** src/field_5x52_impl.h:345-347 secp256k1_fe_impl_sqr *)
Definition c64_fe_impl_sqr : func := mkfunc "secp256k1_fe_impl_sqr" [("r", false); ("a", false)] false
  (Call "_" "secp256k1_fe_sqr_inner" [Op1 ".n" (Var "r"); Op1 ".n" (Var "a")]).
(** src/field_5x52_int128_impl.h:18-152 secp256k1_fe_mul_inner *)
Definition c64_fe_mul_inner : func := mkfunc "secp256k1_fe_mul_inner" [("r", false); ("a", false); ("b", false)] false
  (seq [Assign "a0" (Load Sec (Op2 "[]" (Var "a") (Num 0)));
      Assign "a1" (Load Sec (Op2 "[]" (Var "a") (Num 1)));
      Assign "a2" (Load Sec (Op2 "[]" (Var "a") (Num 2)));
      Assign "a3" (Load Sec (Op2 "[]" (Var "a") (Num 3)));
      Assign "a4" (Load Sec (Op2 "[]" (Var "a") (Num 4)));
      Assign "M" (Num 4503599627370495);
      Assign "R" (Num 68719492368);
      Call "_" "secp256k1_u128_mul" [Addr "d"; Var "a0"; Load Sec (Op2 "[]" (Var "b") (Num 3))];
      Call "_" "secp256k1_u128_accum_mul" [Addr "d"; Var "a1"; Load Sec (Op2 "[]" (Var "b") (Num 2))];
      Call "_" "secp256k1_u128_accum_mul" [Addr "d"; Var "a2"; Load Sec (Op2 "[]" (Var "b") (Num 1))];
      Call "_" "secp256k1_u128_accum_mul" [Addr "d"; Var "a3"; Load Sec (Op2 "[]" (Var "b") (Num 0))];
      Call "_" "secp256k1_u128_mul" [Addr "c"; Var "a4"; Load Sec (Op2 "[]" (Var "b") (Num 4))];
      Call "t1" "secp256k1_u128_to_u64" [Addr "c"];
      Call "_" "secp256k1_u128_accum_mul" [Addr "d"; Var "R"; Var "t1"];
      Call "_" "secp256k1_u128_rshift" [Addr "c"; Num 64];
      Call "t2" "secp256k1_u128_to_u64" [Addr "d"];
      Assign "t3" (Op2 "&" (Var "t2") (Var "M"));
      Call "_" "secp256k1_u128_rshift" [Addr "d"; Num 52];
      Call "_" "secp256k1_u128_accum_mul" [Addr "d"; Var "a0"; Load Sec (Op2 "[]" (Var "b") (Num 4))];
      Call "_" "secp256k1_u128_accum_mul" [Addr "d"; Var "a1"; Load Sec (Op2 "[]" (Var "b") (Num 3))];
      Call "_" "secp256k1_u128_accum_mul" [Addr "d"; Var "a2"; Load Sec (Op2 "[]" (Var "b") (Num 2))];
      Call "_" "secp256k1_u128_accum_mul" [Addr "d"; Var "a3"; Load Sec (Op2 "[]" (Var "b") (Num 1))];
      Call "_" "secp256k1_u128_accum_mul" [Addr "d"; Var "a4"; Load Sec (Op2 "[]" (Var "b") (Num 0))];
      Call "t3" "secp256k1_u128_to_u64" [Addr "c"];
      Call "_" "secp256k1_u128_accum_mul" [Addr "d"; Op2 "<<" (Var "R") (Num 12); Var "t3"];
      Call "t4" "secp256k1_u128_to_u64" [Addr "d"];
      Assign "t4" (Op2 "&" (Var "t4") (Var "M"));
      Call "_" "secp256k1_u128_rshift" [Addr "d"; Num 52];
      Assign "tx" (Op2 ">>" (Var "t4") (Num 48));
      Assign "t4" (Op2 "&" (Var "t4") (Op2 ">>" (Var "M") (Num 4)));
      Call "_" "secp256k1_u128_mul" [Addr "c"; Var "a0"; Load Sec (Op2 "[]" (Var "b") (Num 0))];
      Call "_" "secp256k1_u128_accum_mul" [Addr "d"; Var "a1"; Load Sec (Op2 "[]" (Var "b") (Num 4))];
      Call "_" "secp256k1_u128_accum_mul" [Addr "d"; Var "a2"; Load Sec (Op2 "[]" (Var "b") (Num 3))];
      Call "_" "secp256k1_u128_accum_mul" [Addr "d"; Var "a3"; Load Sec (Op2 "[]" (Var "b") (Num 2))];
      Call "_" "secp256k1_u128_accum_mul" [Addr "d"; Var "a4"; Load Sec (Op2 "[]" (Var "b") (Num 1))];
      Call "t5" "secp256k1_u128_to_u64" [Addr "d"];
      Assign "u0" (Op2 "&" (Var "t5") (Var "M"));
      Call "_" "secp256k1_u128_rshift" [Addr "d"; Num 52];
      Assign "u0" (Op2 "|" (Op2 "<<" (Var "u0") (Num 4)) (Var "tx"));
      Call "_" "secp256k1_u128_accum_mul" [Addr "c"; Var "u0"; Op2 ">>" (Var "R") (Num 4)];
      Call "t6" "secp256k1_u128_to_u64" [Addr "c"];
      Store Sec (Op2 "[]" (Var "r") (Num 0)) (Op2 "&" (Var "t6") (Var "M"));
      Call "_" "secp256k1_u128_rshift" [Addr "c"; Num 52];
      Call "_" "secp256k1_u128_accum_mul" [Addr "c"; Var "a0"; Load Sec (Op2 "[]" (Var "b") (Num 1))];
      Call "_" "secp256k1_u128_accum_mul" [Addr "c"; Var "a1"; Load Sec (Op2 "[]" (Var "b") (Num 0))];
      Call "_" "secp256k1_u128_accum_mul" [Addr "d"; Var "a2"; Load Sec (Op2 "[]" (Var "b") (Num 4))];
      Call "_" "secp256k1_u128_accum_mul" [Addr "d"; Var "a3"; Load Sec (Op2 "[]" (Var "b") (Num 3))];
      Call "_" "secp256k1_u128_accum_mul" [Addr "d"; Var "a4"; Load Sec (Op2 "[]" (Var "b") (Num 2))];
      Call "t7" "secp256k1_u128_to_u64" [Addr "d"];
      Call "_" "secp256k1_u128_accum_mul" [Addr "c"; Op2 "&" (Var "t7") (Var "M"); Var "R"];
      Call "_" "secp256k1_u128_rshift" [Addr "d"; Num 52];
      Call "t8" "secp256k1_u128_to_u64" [Addr "c"];
      Store Sec (Op2 "[]" (Var "r") (Num 1)) (Op2 "&" (Var "t8") (Var "M"));
      Call "_" "secp256k1_u128_rshift" [Addr "c"; Num 52];
      Call "_" "secp256k1_u128_accum_mul" [Addr "c"; Var "a0"; Load Sec (Op2 "[]" (Var "b") (Num 2))];
      Call "_" "secp256k1_u128_accum_mul" [Addr "c"; Var "a1"; Load Sec (Op2 "[]" (Var "b") (Num 1))];
      Call "_" "secp256k1_u128_accum_mul" [Addr "c"; Var "a2"; Load Sec (Op2 "[]" (Var "b") (Num 0))];
      Call "_" "secp256k1_u128_accum_mul" [Addr "d"; Var "a3"; Load Sec (Op2 "[]" (Var "b") (Num 4))];
      Call "_" "secp256k1_u128_accum_mul" [Addr "d"; Var "a4"; Load Sec (Op2 "[]" (Var "b") (Num 3))];
      Call "t9" "secp256k1_u128_to_u64" [Addr "d"];
      Call "_" "secp256k1_u128_accum_mul" [Addr "c"; Var "R"; Var "t9"];
      Call "_" "secp256k1_u128_rshift" [Addr "d"; Num 64];
      Call "t10" "secp256k1_u128_to_u64" [Addr "c"];
      Store Sec (Op2 "[]" (Var "r") (Num 2)) (Op2 "&" (Var "t10") (Var "M"));
      Call "_" "secp256k1_u128_rshift" [Addr "c"; Num 52];
      Call "t11" "secp256k1_u128_to_u64" [Addr "d"];
      Call "_" "secp256k1_u128_accum_mul" [Addr "c"; Op2 "<<" (Var "R") (Num 12); Var "t11"];
      Call "_" "secp256k1_u128_accum_u64" [Addr "c"; Var "t3"];
      Call "t12" "secp256k1_u128_to_u64" [Addr "c"];
      Store Sec (Op2 "[]" (Var "r") (Num 3)) (Op2 "&" (Var "t12") (Var "M"));
      Call "_" "secp256k1_u128_rshift" [Addr "c"; Num 52];
      Call "t13" "secp256k1_u128_to_u64" [Addr "c"];
      Store Sec (Op2 "[]" (Var "r") (Num 4)) (Op2 "+" (Var "t13") (Var "t4"))]).
(** src/field_5x52_impl.h:341-343 secp256k1_fe_impl_mul *)
Definition c64_fe_impl_mul : func := mkfunc "secp256k1_fe_impl_mul" [("r", false); ("a", false); ("b", false)] false
  (Call "_" "secp256k1_fe_mul_inner" [Op1 ".n" (Var "r"); Op1 ".n" (Var "a"); Op1 ".n" (Var "b")]).
(** src/group_impl.h:861-875 secp256k1_gej_rescale *)
Definition c64_gej_rescale : func := mkfunc "secp256k1_gej_rescale" [("r", false); ("s", false)] false
  (seq [Call "_" "secp256k1_fe_impl_sqr" [Addr "zz"; Var "s"];
      Call "_" "secp256k1_fe_impl_mul" [Op1 ".x" (Var "r"); Op1 ".x" (Var "r"); Addr "zz"];
      Call "_" "secp256k1_fe_impl_mul" [Op1 ".y" (Var "r"); Op1 ".y" (Var "r"); Addr "zz"];
      Call "_" "secp256k1_fe_impl_mul" [Op1 ".y" (Var "r"); Op1 ".y" (Var "r"); Var "s"];
      Call "_" "secp256k1_fe_impl_mul" [Op1 ".z" (Var "r"); Op1 ".z" (Var "r"); Var "s"]]).
(** src/field_5x52_impl.h:333-339 secp256k1_fe_impl_add *)
Definition c64_fe_impl_add : func := mkfunc "secp256k1_fe_impl_add" [("r", false); ("a", false)] false
  (seq [Store Sec (Op2 "[]" (Op1 ".n" (Var "r")) (Num 0)) (Op2 "+" (Load Sec (Op2 "[]" (Op1 ".n" (Var "r")) (Num 0))) (Load Sec (Op2 "[]" (Op1 ".n" (Var "a")) (Num 0))));
      Store Sec (Op2 "[]" (Op1 ".n" (Var "r")) (Num 1)) (Op2 "+" (Load Sec (Op2 "[]" (Op1 ".n" (Var "r")) (Num 1))) (Load Sec (Op2 "[]" (Op1 ".n" (Var "a")) (Num 1))));
      Store Sec (Op2 "[]" (Op1 ".n" (Var "r")) (Num 2)) (Op2 "+" (Load Sec (Op2 "[]" (Op1 ".n" (Var "r")) (Num 2))) (Load Sec (Op2 "[]" (Op1 ".n" (Var "a")) (Num 2))));
      Store Sec (Op2 "[]" (Op1 ".n" (Var "r")) (Num 3)) (Op2 "+" (Load Sec (Op2 "[]" (Op1 ".n" (Var "r")) (Num 3))) (Load Sec (Op2 "[]" (Op1 ".n" (Var "a")) (Num 3))));
      Store Sec (Op2 "[]" (Op1 ".n" (Var "r")) (Num 4)) (Op2 "+" (Load Sec (Op2 "[]" (Op1 ".n" (Var "r")) (Num 4))) (Load Sec (Op2 "[]" (Op1 ".n" (Var "a")) (Num 4))))]).
(** src/field_5x52_impl.h:137-158 secp256k1_fe_impl_normalizes_to_zero *)
Definition c64_fe_impl_normalizes_to_zero : func := mkfunc "secp256k1_fe_impl_normalizes_to_zero" [("r", false)] true
  (seq [Assign "t0" (Load Sec (Op2 "[]" (Op1 ".n" (Var "r")) (Num 0)));
      Assign "t1" (Load Sec (Op2 "[]" (Op1 ".n" (Var "r")) (Num 1)));
      Assign "t2" (Load Sec (Op2 "[]" (Op1 ".n" (Var "r")) (Num 2)));
      Assign "t3" (Load Sec (Op2 "[]" (Op1 ".n" (Var "r")) (Num 3)));
      Assign "t4" (Load Sec (Op2 "[]" (Op1 ".n" (Var "r")) (Num 4)));
      Assign "x" (Op2 ">>" (Var "t4") (Num 48));
      Assign "t4" (Op2 "&" (Var "t4") (Num 281474976710655));
      Assign "t0" (Op2 "+" (Var "t0") (Op2 "*" (Var "x") (Num 4294968273)));
      Assign "t1" (Op2 "+" (Var "t1") (Op2 ">>" (Var "t0") (Num 52)));
      Assign "t0" (Op2 "&" (Var "t0") (Num 4503599627370495));
      Assign "z0" (Var "t0");
      Assign "z1" (Op2 "^" (Var "t0") (Num 4294968272));
      Assign "t2" (Op2 "+" (Var "t2") (Op2 ">>" (Var "t1") (Num 52)));
      Assign "t1" (Op2 "&" (Var "t1") (Num 4503599627370495));
      Assign "z0" (Op2 "|" (Var "z0") (Var "t1"));
      Assign "z1" (Op2 "&" (Var "z1") (Var "t1"));
      Assign "t3" (Op2 "+" (Var "t3") (Op2 ">>" (Var "t2") (Num 52)));
      Assign "t2" (Op2 "&" (Var "t2") (Num 4503599627370495));
      Assign "z0" (Op2 "|" (Var "z0") (Var "t2"));
      Assign "z1" (Op2 "&" (Var "z1") (Var "t2"));
      Assign "t4" (Op2 "+" (Var "t4") (Op2 ">>" (Var "t3") (Num 52)));
      Assign "t3" (Op2 "&" (Var "t3") (Num 4503599627370495));
      Assign "z0" (Op2 "|" (Var "z0") (Var "t3"));
      Assign "z1" (Op2 "&" (Var "z1") (Var "t3"));
      Assign "z0" (Op2 "|" (Var "z0") (Var "t4"));
      Assign "z1" (Op2 "&" (Var "z1") (Op2 "^" (Var "t4") (Num 4222124650659840)));
      Return (Op2 "|" (Op2 "==" (Var "z0") (Num 0)) (Op2 "==" (Var "z1") (Num 4503599627370495)))]).
(** src/field_5x52_impl.h:321-327 secp256k1_fe_impl_mul_int_unchecked *)
Definition c64_fe_impl_mul_int_unchecked : func := mkfunc "secp256k1_fe_impl_mul_int_unchecked" [("r", false); ("a", false)] false
  (seq [Store Sec (Op2 "[]" (Op1 ".n" (Var "r")) (Num 0)) (Op2 "*" (Load Sec (Op2 "[]" (Op1 ".n" (Var "r")) (Num 0))) (Var "a"));
      Store Sec (Op2 "[]" (Op1 ".n" (Var "r")) (Num 1)) (Op2 "*" (Load Sec (Op2 "[]" (Op1 ".n" (Var "r")) (Num 1))) (Var "a"));
      Store Sec (Op2 "[]" (Op1 ".n" (Var "r")) (Num 2)) (Op2 "*" (Load Sec (Op2 "[]" (Op1 ".n" (Var "r")) (Num 2))) (Var "a"));
      Store Sec (Op2 "[]" (Op1 ".n" (Var "r")) (Num 3)) (Op2 "*" (Load Sec (Op2 "[]" (Op1 ".n" (Var "r")) (Num 3))) (Var "a"));
      Store Sec (Op2 "[]" (Op1 ".n" (Var "r")) (Num 4)) (Op2 "*" (Load Sec (Op2 "[]" (Op1 ".n" (Var "r")) (Num 4))) (Var "a"))]).
(** src/field_5x52_impl.h:362-414 secp256k1_fe_impl_half *)
Definition c64_fe_impl_half : func := mkfunc "secp256k1_fe_impl_half" [("r", false)] false
  (seq [Assign "t0" (Load Sec (Op2 "[]" (Op1 ".n" (Var "r")) (Num 0)));
      Assign "t1" (Load Sec (Op2 "[]" (Op1 ".n" (Var "r")) (Num 1)));
      Assign "t2" (Load Sec (Op2 "[]" (Op1 ".n" (Var "r")) (Num 2)));
      Assign "t3" (Load Sec (Op2 "[]" (Op1 ".n" (Var "r")) (Num 3)));
      Assign "t4" (Load Sec (Op2 "[]" (Op1 ".n" (Var "r")) (Num 4)));
      Assign "one" (Op1 "(uint64_t)" (Num 1));
      Assign "mask" (Op2 ">>" (Op1 "-" (Op2 "&" (Var "t0") (Var "one"))) (Num 12));
      Assign "t0" (Op2 "+" (Var "t0") (Op2 "&" (Num 4503595332402223) (Var "mask")));
      Assign "t1" (Op2 "+" (Var "t1") (Var "mask"));
      Assign "t2" (Op2 "+" (Var "t2") (Var "mask"));
      Assign "t3" (Op2 "+" (Var "t3") (Var "mask"));
      Assign "t4" (Op2 "+" (Var "t4") (Op2 ">>" (Var "mask") (Num 4)));
      Store Sec (Op2 "[]" (Op1 ".n" (Var "r")) (Num 0)) (Op2 "+" (Op2 ">>" (Var "t0") (Num 1)) (Op2 "<<" (Op2 "&" (Var "t1") (Var "one")) (Num 51)));
      Store Sec (Op2 "[]" (Op1 ".n" (Var "r")) (Num 1)) (Op2 "+" (Op2 ">>" (Var "t1") (Num 1)) (Op2 "<<" (Op2 "&" (Var "t2") (Var "one")) (Num 51)));
      Store Sec (Op2 "[]" (Op1 ".n" (Var "r")) (Num 2)) (Op2 "+" (Op2 ">>" (Var "t2") (Num 1)) (Op2 "<<" (Op2 "&" (Var "t3") (Var "one")) (Num 51)));
      Store Sec (Op2 "[]" (Op1 ".n" (Var "r")) (Num 3)) (Op2 "+" (Op2 ">>" (Var "t3") (Num 1)) (Op2 "<<" (Op2 "&" (Var "t4") (Var "one")) (Num 51)));
      Store Sec (Op2 "[]" (Op1 ".n" (Var "r")) (Num 4)) (Op2 ">>" (Var "t4") (Num 1))]).
(** src/field_5x52_impl.h:349-360 secp256k1_fe_impl_cmov@SP *)
Definition c64_fe_impl_cmov__SP : func := mkfunc "secp256k1_fe_impl_cmov@SP" [("r", false); ("a", false); ("flag", true)] false
  (seq [Assign "vflag" (Var "flag");
      Assign "mask0" (Op2 "+" (Var "vflag") (Op1 "~" (Op1 "(uint64_t)" (Num 0))));
      Assign "mask1" (Op1 "~" (Var "mask0"));
      Store Sec (Op2 "[]" (Op1 ".n" (Var "r")) (Num 0)) (Op2 "|" (Op2 "&" (Load Sec (Op2 "[]" (Op1 ".n" (Var "r")) (Num 0))) (Var "mask0")) (Op2 "&" (Load Pub (Op2 "[]" (Op1 ".n" (Var "a")) (Num 0))) (Var "mask1")));
      Store Sec (Op2 "[]" (Op1 ".n" (Var "r")) (Num 1)) (Op2 "|" (Op2 "&" (Load Sec (Op2 "[]" (Op1 ".n" (Var "r")) (Num 1))) (Var "mask0")) (Op2 "&" (Load Pub (Op2 "[]" (Op1 ".n" (Var "a")) (Num 1))) (Var "mask1")));
      Store Sec (Op2 "[]" (Op1 ".n" (Var "r")) (Num 2)) (Op2 "|" (Op2 "&" (Load Sec (Op2 "[]" (Op1 ".n" (Var "r")) (Num 2))) (Var "mask0")) (Op2 "&" (Load Pub (Op2 "[]" (Op1 ".n" (Var "a")) (Num 2))) (Var "mask1")));
      Store Sec (Op2 "[]" (Op1 ".n" (Var "r")) (Num 3)) (Op2 "|" (Op2 "&" (Load Sec (Op2 "[]" (Op1 ".n" (Var "r")) (Num 3))) (Var "mask0")) (Op2 "&" (Load Pub (Op2 "[]" (Op1 ".n" (Var "a")) (Num 3))) (Var "mask1")));
      Store Sec (Op2 "[]" (Op1 ".n" (Var "r")) (Num 4)) (Op2 "|" (Op2 "&" (Load Sec (Op2 "[]" (Op1 ".n" (Var "r")) (Num 4))) (Var "mask0")) (Op2 "&" (Load Pub (Op2 "[]" (Op1 ".n" (Var "a")) (Num 4))) (Var "mask1")))]).
(** src/group_impl.h:724-859 secp256k1_gej_add_ge *)
Definition c64_gej_add_ge : func := mkfunc "secp256k1_gej_add_ge" [("r", false); ("a", false); ("b", false)] false
  (seq [Call "_" "secp256k1_fe_impl_sqr" [Addr "zz"; Op1 ".z" (Var "a")];
      Prim "copy" [Addr "u1"; Op1 ".x" (Var "a")];
      Call "_" "secp256k1_fe_impl_mul" [Addr "u2"; Op1 ".x" (Var "b"); Addr "zz"];
      Prim "copy" [Addr "s1"; Op1 ".y" (Var "a")];
      Call "_" "secp256k1_fe_impl_mul" [Addr "s2"; Op1 ".y" (Var "b"); Addr "zz"];
      Call "_" "secp256k1_fe_impl_mul" [Addr "s2"; Addr "s2"; Op1 ".z" (Var "a")];
      Prim "copy" [Addr "t"; Addr "u1"];
      Call "_" "secp256k1_fe_impl_add" [Addr "t"; Addr "u2"];
      Prim "copy" [Addr "m"; Addr "s1"];
      Call "_" "secp256k1_fe_impl_add" [Addr "m"; Addr "s2"];
      Call "_" "secp256k1_fe_impl_sqr" [Addr "rr"; Addr "t"];
      Call "_" "secp256k1_fe_impl_negate_unchecked" [Addr "m_alt"; Addr "u2"; Num 1];
      Call "_" "secp256k1_fe_impl_mul" [Addr "tt"; Addr "u1"; Addr "m_alt"];
      Call "_" "secp256k1_fe_impl_add" [Addr "rr"; Addr "tt"];
      Call "t1" "secp256k1_fe_impl_normalizes_to_zero" [Addr "m"];
      Assign "degenerate" (Var "t1");
      Prim "copy" [Addr "rr_alt"; Addr "s1"];
      Call "_" "secp256k1_fe_impl_mul_int_unchecked" [Addr "rr_alt"; Num 2];
      Call "_" "secp256k1_fe_impl_add" [Addr "m_alt"; Addr "u1"];
      Call "_" "secp256k1_fe_impl_cmov" [Addr "rr_alt"; Addr "rr"; Op1 "!" (Var "degenerate")];
      Call "_" "secp256k1_fe_impl_cmov" [Addr "m_alt"; Addr "m"; Op1 "!" (Var "degenerate")];
      Call "_" "secp256k1_fe_impl_sqr" [Addr "n"; Addr "m_alt"];
      Call "_" "secp256k1_fe_impl_negate_unchecked" [Addr "q"; Addr "t"; Op2 "+" (Num 4) (Num 1)];
      Call "_" "secp256k1_fe_impl_mul" [Addr "q"; Addr "q"; Addr "n"];
      Call "_" "secp256k1_fe_impl_sqr" [Addr "n"; Addr "n"];
      Call "_" "secp256k1_fe_impl_cmov" [Addr "n"; Addr "m"; Var "degenerate"];
      Call "_" "secp256k1_fe_impl_sqr" [Addr "t"; Addr "rr_alt"];
      Call "_" "secp256k1_fe_impl_mul" [Op1 ".z" (Var "r"); Op1 ".z" (Var "a"); Addr "m_alt"];
      Call "_" "secp256k1_fe_impl_add" [Addr "t"; Addr "q"];
      Prim "copy" [Op1 ".x" (Var "r"); Addr "t"];
      Call "_" "secp256k1_fe_impl_mul_int_unchecked" [Addr "t"; Num 2];
      Call "_" "secp256k1_fe_impl_add" [Addr "t"; Addr "q"];
      Call "_" "secp256k1_fe_impl_mul" [Addr "t"; Addr "t"; Addr "rr_alt"];
      Call "_" "secp256k1_fe_impl_add" [Addr "t"; Addr "n"];
      Call "_" "secp256k1_fe_impl_negate_unchecked" [Op1 ".y" (Var "r"); Addr "t"; Op2 "+" (Num 4) (Num 2)];
      Call "_" "secp256k1_fe_impl_half" [Op1 ".y" (Var "r")];
      Call "_" "secp256k1_fe_impl_cmov" [Op1 ".x" (Var "r"); Op1 ".x" (Var "b"); Load Sec (Op1 ".infinity" (Var "a"))];
      Call "_" "secp256k1_fe_impl_cmov" [Op1 ".y" (Var "r"); Op1 ".y" (Var "b"); Load Sec (Op1 ".infinity" (Var "a"))];
      Call "_" "secp256k1_fe_impl_cmov@SP" [Op1 ".z" (Var "r"); Op0 "secp256k1_fe_one"; Load Sec (Op1 ".infinity" (Var "a"))];
      Call "t2" "secp256k1_fe_impl_normalizes_to_zero" [Op1 ".z" (Var "r")];
      Store Sec (Op1 ".infinity" (Var "r")) (Var "t2")]).
(** src/group_impl.h:460-493 secp256k1_gej_double *)
Definition c64_gej_double : func := mkfunc "secp256k1_gej_double" [("r", false); ("a", false)] false
  (seq [Store Sec (Op1 ".infinity" (Var "r")) (Load Sec (Op1 ".infinity" (Var "a")));
      Call "_" "secp256k1_fe_impl_mul" [Op1 ".z" (Var "r"); Op1 ".z" (Var "a"); Op1 ".y" (Var "a")];
      Call "_" "secp256k1_fe_impl_sqr" [Addr "s"; Op1 ".y" (Var "a")];
      Call "_" "secp256k1_fe_impl_sqr" [Addr "l"; Op1 ".x" (Var "a")];
      Call "_" "secp256k1_fe_impl_mul_int_unchecked" [Addr "l"; Num 3];
      Call "_" "secp256k1_fe_impl_half" [Addr "l"];
      Call "_" "secp256k1_fe_impl_negate_unchecked" [Addr "t"; Addr "s"; Num 1];
      Call "_" "secp256k1_fe_impl_mul" [Addr "t"; Addr "t"; Op1 ".x" (Var "a")];
      Call "_" "secp256k1_fe_impl_sqr" [Op1 ".x" (Var "r"); Addr "l"];
      Call "_" "secp256k1_fe_impl_add" [Op1 ".x" (Var "r"); Addr "t"];
      Call "_" "secp256k1_fe_impl_add" [Op1 ".x" (Var "r"); Addr "t"];
      Call "_" "secp256k1_fe_impl_sqr" [Addr "s"; Addr "s"];
      Call "_" "secp256k1_fe_impl_add" [Addr "t"; Op1 ".x" (Var "r")];
      Call "_" "secp256k1_fe_impl_mul" [Op1 ".y" (Var "r"); Addr "t"; Addr "l"];
      Call "_" "secp256k1_fe_impl_add" [Op1 ".y" (Var "r"); Addr "s"];
      Call "_" "secp256k1_fe_impl_negate_unchecked" [Op1 ".y" (Var "r"); Op1 ".y" (Var "r"); Num 2]]).
(** src/field_impl.h:21-23 secp256k1_fe_clear *)
Definition c64_fe_clear : func := mkfunc "secp256k1_fe_clear" [("a", false)] false
  (Prim "secp256k1_memclear" [Var "a"; Op0 "sizeof ( secp256k1_fe )"]).
(** src/group_impl.h:343-345 secp256k1_ge_clear *)
Definition c64_ge_clear : func := mkfunc "secp256k1_ge_clear" [("r", false)] false
  (Prim "secp256k1_memclear" [Var "r"; Op0 "sizeof ( secp256k1_ge )"]).
(** src/ecmult_gen_impl.h:54-282 secp256k1_ecmult_gen *)
Definition c64_ecmult_gen : func := mkfunc "secp256k1_ecmult_gen" [("ctx", false); ("r", false); ("gn", false)] false
  (seq [Prim "init" [Addr "recoded"];
      Assign "first" (Num 1);
      Prim "memset" [Addr "adds"; Num 0; Op0 "sizeof ( adds )"];
      Call "_" "secp256k1_scalar_add" [Addr "d"; Op1 ".scalar_offset" (Var "ctx"); Var "gn"];
      Assign "i" (Num 0);
      Loop (seq [If (Op2 "<" (Var "i") (Num 8)) (Assign "t1" (Op2 "!=" (Op2 "<" (Var "i") (Op2 ">>" (Op2 "+" (Op2 "*" (Op2 "*" (Num 11) (Num 6)) (Op2 "+" (Num 1) (Op2 "/" (Op2 "-" (Num 256) (Num 1)) (Op2 "*" (Num 11) (Num 6))))) (Num 31)) (Num 5))) (Num 0))) (Assign "t1" (Num 0));
      If (Var "t1") (seq [Call "t2" "secp256k1_scalar_get_bits_limb32" [Addr "d"; Op2 "*" (Num 32) (Var "i"); Num 32];
      Store Sec (Op2 "[]" (Addr "recoded") (Var "i")) (Var "t2");
      Assign "i" (Op2 "+" (Var "i") (Num 1))]) (Break)]);
      Call "_" "secp256k1_scalar_clear" [Addr "d"];
      Assign "comb_off" (Op2 "-" (Op2 "+" (Num 1) (Op2 "/" (Op2 "-" (Num 256) (Num 1)) (Op2 "*" (Num 11) (Num 6)))) (Num 1));
      Loop (seq [Assign "bit_pos" (Var "comb_off");
      Assign "block" (Num 0);
      Loop (If (Op2 "<" (Var "block") (Num 11)) (seq [Assign "bits" (Num 0);
      Assign "tooth" (Num 0);
      Loop (If (Op2 "<" (Var "tooth") (Num 6)) (seq [Call "t3" "secp256k1_rotr32" [Load Sec (Op2 "[]" (Addr "recoded") (Op2 ">>" (Var "bit_pos") (Num 5))); Op2 "&" (Var "bit_pos") (Num 31)];
      Assign "bitdata" (Var "t3");
      Assign "vmask" (Op1 "~" (Op2 "<<" (Num 1) (Var "tooth")));
      Assign "bits" (Op2 "&" (Var "bits") (Var "vmask"));
      Assign "bits" (Op2 "^" (Var "bits") (Op2 "<<" (Var "bitdata") (Var "tooth")));
      Assign "bit_pos" (Op2 "+" (Var "bit_pos") (Op2 "+" (Num 1) (Op2 "/" (Op2 "-" (Num 256) (Num 1)) (Op2 "*" (Num 11) (Num 6)))));
      Assign "tooth" (Op2 "+" (Var "tooth") (Num 1))]) (Break));
      Assign "sign" (Op2 "&" (Op2 ">>" (Var "bits") (Op2 "-" (Num 6) (Num 1))) (Num 1));
      Assign "abs" (Op2 "&" (Op2 "^" (Var "bits") (Op1 "-" (Var "sign"))) (Op2 "-" (Op2 "<<" (Num 1) (Op2 "-" (Num 6) (Num 1))) (Num 1)));
      Assign "index" (Num 0);
      Loop (If (Op2 "<" (Var "index") (Op2 "<<" (Num 1) (Op2 "-" (Num 6) (Num 1)))) (seq [Call "_" "secp256k1_ge_storage_cmov@SP" [Addr "adds"; Op2 "[]" (Op2 "[]" (Op0 "secp256k1_ecmult_gen_prec_table") (Var "block")) (Var "index"); Op2 "==" (Var "index") (Var "abs")];
      Assign "index" (Op2 "+" (Var "index") (Num 1))]) (Break));
      Call "_" "secp256k1_ge_from_storage" [Addr "add"; Addr "adds"];
      Call "_" "secp256k1_fe_impl_negate_unchecked" [Addr "neg"; Op1 ".y" (Addr "add"); Num 1];
      Call "_" "secp256k1_fe_impl_cmov" [Op1 ".y" (Addr "add"); Addr "neg"; Var "sign"];
      If (Var "first") (seq [Call "_" "secp256k1_gej_set_ge" [Var "r"; Addr "add"];
      Call "_" "secp256k1_gej_rescale" [Var "r"; Op1 ".proj_blind" (Var "ctx")];
      Assign "first" (Num 0)]) (Call "_" "secp256k1_gej_add_ge" [Var "r"; Var "r"; Addr "add"]);
      Assign "block" (Op2 "+" (Var "block") (Num 1))]) (Break));
      Assign "t4" (Var "comb_off");
      Assign "comb_off" (Op2 "-" (Var "t4") (Num 1));
      If (Op2 "==" (Var "t4") (Num 0)) (Break) (Skip);
      Call "_" "secp256k1_gej_double" [Var "r"; Var "r"]]);
      Call "_" "secp256k1_gej_add_ge" [Var "r"; Var "r"; Op1 ".ge_offset" (Var "ctx")];
      Call "_" "secp256k1_fe_clear" [Addr "neg"];
      Call "_" "secp256k1_ge_clear" [Addr "add"];
      Prim "secp256k1_memclear" [Addr "adds"; Op0 "sizeof ( adds )"];
      Prim "secp256k1_memclear" [Addr "recoded"; Op0 "sizeof ( recoded )"]]).
(** src/field_5x52_impl.h:43-78 secp256k1_fe_impl_normalize *)
Definition c64_fe_impl_normalize : func := mkfunc "secp256k1_fe_impl_normalize" [("r", false)] false
  (seq [Assign "t0" (Load Sec (Op2 "[]" (Op1 ".n" (Var "r")) (Num 0)));
      Assign "t1" (Load Sec (Op2 "[]" (Op1 ".n" (Var "r")) (Num 1)));
      Assign "t2" (Load Sec (Op2 "[]" (Op1 ".n" (Var "r")) (Num 2)));
      Assign "t3" (Load Sec (Op2 "[]" (Op1 ".n" (Var "r")) (Num 3)));
      Assign "t4" (Load Sec (Op2 "[]" (Op1 ".n" (Var "r")) (Num 4)));
      Assign "x" (Op2 ">>" (Var "t4") (Num 48));
      Assign "t4" (Op2 "&" (Var "t4") (Num 281474976710655));
      Assign "t0" (Op2 "+" (Var "t0") (Op2 "*" (Var "x") (Num 4294968273)));
      Assign "t1" (Op2 "+" (Var "t1") (Op2 ">>" (Var "t0") (Num 52)));
      Assign "t0" (Op2 "&" (Var "t0") (Num 4503599627370495));
      Assign "t2" (Op2 "+" (Var "t2") (Op2 ">>" (Var "t1") (Num 52)));
      Assign "t1" (Op2 "&" (Var "t1") (Num 4503599627370495));
      Assign "m" (Var "t1");
      Assign "t3" (Op2 "+" (Var "t3") (Op2 ">>" (Var "t2") (Num 52)));
      Assign "t2" (Op2 "&" (Var "t2") (Num 4503599627370495));
      Assign "m" (Op2 "&" (Var "m") (Var "t2"));
      Assign "t4" (Op2 "+" (Var "t4") (Op2 ">>" (Var "t3") (Num 52)));
      Assign "t3" (Op2 "&" (Var "t3") (Num 4503599627370495));
      Assign "m" (Op2 "&" (Var "m") (Var "t3"));
      Assign "x" (Op2 "|" (Op2 ">>" (Var "t4") (Num 48)) (Op2 "&" (Op2 "&" (Op2 "==" (Var "t4") (Num 281474976710655)) (Op2 "==" (Var "m") (Num 4503599627370495))) (Op2 ">=" (Var "t0") (Num 4503595332402223))));
      Assign "t0" (Op2 "+" (Var "t0") (Op2 "*" (Var "x") (Num 4294968273)));
      Assign "t1" (Op2 "+" (Var "t1") (Op2 ">>" (Var "t0") (Num 52)));
      Assign "t0" (Op2 "&" (Var "t0") (Num 4503599627370495));
      Assign "t2" (Op2 "+" (Var "t2") (Op2 ">>" (Var "t1") (Num 52)));
      Assign "t1" (Op2 "&" (Var "t1") (Num 4503599627370495));
      Assign "t3" (Op2 "+" (Var "t3") (Op2 ">>" (Var "t2") (Num 52)));
      Assign "t2" (Op2 "&" (Var "t2") (Num 4503599627370495));
      Assign "t4" (Op2 "+" (Var "t4") (Op2 ">>" (Var "t3") (Num 52)));
      Assign "t3" (Op2 "&" (Var "t3") (Num 4503599627370495));
      Assign "t4" (Op2 "&" (Var "t4") (Num 281474976710655));
      Store Sec (Op2 "[]" (Op1 ".n" (Var "r")) (Num 0)) (Var "t0");
      Store Sec (Op2 "[]" (Op1 ".n" (Var "r")) (Num 1)) (Var "t1");
      Store Sec (Op2 "[]" (Op1 ".n" (Var "r")) (Num 2)) (Var "t2");
      Store Sec (Op2 "[]" (Op1 ".n" (Var "r")) (Num 3)) (Var "t3");
      Store Sec (Op2 "[]" (Op1 ".n" (Var "r")) (Num 4)) (Var "t4")]).
(** src/field_5x52_impl.h:463-472 secp256k1_fe_to_signed62 *)
Definition c64_fe_to_signed62 : func := mkfunc "secp256k1_fe_to_signed62" [("r", false); ("a", false)] false
  (seq [Assign "M62" (Op2 ">>" (Num 18446744073709551615) (Num 2));
      Assign "a0" (Load Sec (Op2 "[]" (Op1 ".n" (Var "a")) (Num 0)));
      Assign "a1" (Load Sec (Op2 "[]" (Op1 ".n" (Var "a")) (Num 1)));
      Assign "a2" (Load Sec (Op2 "[]" (Op1 ".n" (Var "a")) (Num 2)));
      Assign "a3" (Load Sec (Op2 "[]" (Op1 ".n" (Var "a")) (Num 3)));
      Assign "a4" (Load Sec (Op2 "[]" (Op1 ".n" (Var "a")) (Num 4)));
      Store Sec (Op2 "[]" (Op1 ".v" (Var "r")) (Num 0)) (Op2 "&" (Op2 "|" (Var "a0") (Op2 "<<" (Var "a1") (Num 52))) (Var "M62"));
      Store Sec (Op2 "[]" (Op1 ".v" (Var "r")) (Num 1)) (Op2 "&" (Op2 "|" (Op2 ">>" (Var "a1") (Num 10)) (Op2 "<<" (Var "a2") (Num 42))) (Var "M62"));
      Store Sec (Op2 "[]" (Op1 ".v" (Var "r")) (Num 2)) (Op2 "&" (Op2 "|" (Op2 ">>" (Var "a2") (Num 20)) (Op2 "<<" (Var "a3") (Num 32))) (Var "M62"));
      Store Sec (Op2 "[]" (Op1 ".v" (Var "r")) (Num 3)) (Op2 "&" (Op2 "|" (Op2 ">>" (Var "a3") (Num 30)) (Op2 "<<" (Var "a4") (Num 22))) (Var "M62"));
      Store Sec (Op2 "[]" (Op1 ".v" (Var "r")) (Num 4)) (Op2 ">>" (Var "a4") (Num 40))]).
(** src/modinv64_impl.h:167-227 secp256k1_modinv64_divsteps_59 *)
Definition c64_modinv64_divsteps_59 : func := mkfunc "secp256k1_modinv64_divsteps_59" [("zeta", true); ("f0", true); ("g0", true); ("t", false)] true
  (seq [Assign "u" (Num 8);
      Assign "v" (Num 0);
      Assign "q" (Num 0);
      Assign "r" (Num 8);
      Assign "f" (Var "f0");
      Assign "g" (Var "g0");
      Assign "i" (Num 3);
      Loop (If (Op2 "<" (Var "i") (Num 62)) (seq [Assign "c1" (Op2 ">>" (Var "zeta") (Num 63));
      Assign "mask1" (Var "c1");
      Assign "c2" (Op2 "&" (Var "g") (Num 1));
      Assign "mask2" (Op1 "-" (Var "c2"));
      Assign "x" (Op2 "-" (Op2 "^" (Var "f") (Var "mask1")) (Var "mask1"));
      Assign "y" (Op2 "-" (Op2 "^" (Var "u") (Var "mask1")) (Var "mask1"));
      Assign "z" (Op2 "-" (Op2 "^" (Var "v") (Var "mask1")) (Var "mask1"));
      Assign "g" (Op2 "+" (Var "g") (Op2 "&" (Var "x") (Var "mask2")));
      Assign "q" (Op2 "+" (Var "q") (Op2 "&" (Var "y") (Var "mask2")));
      Assign "r" (Op2 "+" (Var "r") (Op2 "&" (Var "z") (Var "mask2")));
      Assign "mask1" (Op2 "&" (Var "mask1") (Var "mask2"));
      Assign "zeta" (Op2 "-" (Op2 "^" (Var "zeta") (Var "mask1")) (Num 1));
      Assign "f" (Op2 "+" (Var "f") (Op2 "&" (Var "g") (Var "mask1")));
      Assign "u" (Op2 "+" (Var "u") (Op2 "&" (Var "q") (Var "mask1")));
      Assign "v" (Op2 "+" (Var "v") (Op2 "&" (Var "r") (Var "mask1")));
      Assign "g" (Op2 ">>" (Var "g") (Num 1));
      Assign "u" (Op2 "<<" (Var "u") (Num 1));
      Assign "v" (Op2 "<<" (Var "v") (Num 1));
      Assign "i" (Op2 "+" (Var "i") (Num 1))]) (Break));
      Store Sec (Op1 ".u" (Var "t")) (Op1 "(int64_t)" (Var "u"));
      Store Sec (Op1 ".v" (Var "t")) (Op1 "(int64_t)" (Var "v"));
      Store Sec (Op1 ".q" (Var "t")) (Op1 "(int64_t)" (Var "q"));
      Store Sec (Op1 ".r" (Var "t")) (Op1 "(int64_t)" (Var "r"));
      Return (Var "zeta")]).
(** src/int128_native_impl.h:49-51 secp256k1_i128_mul *)
Definition c64_i128_mul : func := mkfunc "secp256k1_i128_mul" [("r", false); ("a", true); ("b", true)] false
  (Store Sec (Var "r") (Op2 "*" (Op1 "(int128_t)" (Var "a")) (Var "b"))).
(** src/int128_native_impl.h:53-57 secp256k1_i128_accum_mul *)
Definition c64_i128_accum_mul : func := mkfunc "secp256k1_i128_accum_mul" [("r", false); ("a", true); ("b", true)] false
  (seq [Assign "ab" (Op2 "*" (Op1 "(int128_t)" (Var "a")) (Var "b"));
      Store Sec (Var "r") (Op2 "+" (Load Sec (Var "r")) (Var "ab"))]).
(** src/int128_native_impl.h:71-73 secp256k1_i128_to_u64 *)
Definition c64_i128_to_u64 : func := mkfunc "secp256k1_i128_to_u64" [("a", false)] true
  (Return (Op1 "(uint64_t)" (Load Sec (Var "a")))).
(** src/int128_native_impl.h:66-69 secp256k1_i128_rshift *)
Definition c64_i128_rshift : func := mkfunc "secp256k1_i128_rshift" [("r", false); ("n", false)] false
  (Store Sec (Var "r") (Op2 ">>" (Load Sec (Var "r")) (Var "n"))).
(** src/int128_native_impl.h:75-78 secp256k1_i128_to_i64 *)
Definition c64_i128_to_i64 : func := mkfunc "secp256k1_i128_to_i64" [("a", false)] true
  (Return (Load Sec (Var "a"))).
(** src/modinv64_impl.h:411-494 secp256k1_modinv64_update_de_62@SSSP *)
Definition c64_modinv64_update_de_62__SSSP : func := mkfunc "secp256k1_modinv64_update_de_62@SSSP" [("d", false); ("e", false); ("t", false); ("modinfo", false)] false
  (seq [Assign "M62" (Op2 ">>" (Num 18446744073709551615) (Num 2));
      Assign "d0" (Load Sec (Op2 "[]" (Op1 ".v" (Var "d")) (Num 0)));
      Assign "d1" (Load Sec (Op2 "[]" (Op1 ".v" (Var "d")) (Num 1)));
      Assign "d2" (Load Sec (Op2 "[]" (Op1 ".v" (Var "d")) (Num 2)));
      Assign "d3" (Load Sec (Op2 "[]" (Op1 ".v" (Var "d")) (Num 3)));
      Assign "d4" (Load Sec (Op2 "[]" (Op1 ".v" (Var "d")) (Num 4)));
      Assign "e0" (Load Sec (Op2 "[]" (Op1 ".v" (Var "e")) (Num 0)));
      Assign "e1" (Load Sec (Op2 "[]" (Op1 ".v" (Var "e")) (Num 1)));
      Assign "e2" (Load Sec (Op2 "[]" (Op1 ".v" (Var "e")) (Num 2)));
      Assign "e3" (Load Sec (Op2 "[]" (Op1 ".v" (Var "e")) (Num 3)));
      Assign "e4" (Load Sec (Op2 "[]" (Op1 ".v" (Var "e")) (Num 4)));
      Assign "u" (Load Sec (Op1 ".u" (Var "t")));
      Assign "v" (Load Sec (Op1 ".v" (Var "t")));
      Assign "q" (Load Sec (Op1 ".q" (Var "t")));
      Assign "r" (Load Sec (Op1 ".r" (Var "t")));
      Assign "sd" (Op2 ">>" (Var "d4") (Num 63));
      Assign "se" (Op2 ">>" (Var "e4") (Num 63));
      Assign "md" (Op2 "+" (Op2 "&" (Var "u") (Var "sd")) (Op2 "&" (Var "v") (Var "se")));
      Assign "me" (Op2 "+" (Op2 "&" (Var "q") (Var "sd")) (Op2 "&" (Var "r") (Var "se")));
      Call "_" "secp256k1_i128_mul" [Addr "cd"; Var "u"; Var "d0"];
      Call "_" "secp256k1_i128_accum_mul" [Addr "cd"; Var "v"; Var "e0"];
      Call "_" "secp256k1_i128_mul" [Addr "ce"; Var "q"; Var "d0"];
      Call "_" "secp256k1_i128_accum_mul" [Addr "ce"; Var "r"; Var "e0"];
      Call "t1" "secp256k1_i128_to_u64" [Addr "cd"];
      Assign "md" (Op2 "-" (Var "md") (Op2 "&" (Op2 "+" (Op2 "*" (Load Pub (Op1 ".modulus_inv62" (Var "modinfo"))) (Var "t1")) (Var "md")) (Var "M62")));
      Call "t2" "secp256k1_i128_to_u64" [Addr "ce"];
      Assign "me" (Op2 "-" (Var "me") (Op2 "&" (Op2 "+" (Op2 "*" (Load Pub (Op1 ".modulus_inv62" (Var "modinfo"))) (Var "t2")) (Var "me")) (Var "M62")));
      Call "_" "secp256k1_i128_accum_mul" [Addr "cd"; Load Pub (Op2 "[]" (Op1 ".v" (Op1 ".modulus" (Var "modinfo"))) (Num 0)); Var "md"];
      Call "_" "secp256k1_i128_accum_mul" [Addr "ce"; Load Pub (Op2 "[]" (Op1 ".v" (Op1 ".modulus" (Var "modinfo"))) (Num 0)); Var "me"];
      Call "_" "secp256k1_i128_rshift" [Addr "cd"; Num 62];
      Call "_" "secp256k1_i128_rshift" [Addr "ce"; Num 62];
      Call "_" "secp256k1_i128_accum_mul" [Addr "cd"; Var "u"; Var "d1"];
      Call "_" "secp256k1_i128_accum_mul" [Addr "cd"; Var "v"; Var "e1"];
      Call "_" "secp256k1_i128_accum_mul" [Addr "ce"; Var "q"; Var "d1"];
      Call "_" "secp256k1_i128_accum_mul" [Addr "ce"; Var "r"; Var "e1"];
      If (Load Pub (Op2 "[]" (Op1 ".v" (Op1 ".modulus" (Var "modinfo"))) (Num 1))) (seq [Call "_" "secp256k1_i128_accum_mul" [Addr "cd"; Load Pub (Op2 "[]" (Op1 ".v" (Op1 ".modulus" (Var "modinfo"))) (Num 1)); Var "md"];
      Call "_" "secp256k1_i128_accum_mul" [Addr "ce"; Load Pub (Op2 "[]" (Op1 ".v" (Op1 ".modulus" (Var "modinfo"))) (Num 1)); Var "me"]]) (Skip);
      Call "t3" "secp256k1_i128_to_u64" [Addr "cd"];
      Store Sec (Op2 "[]" (Op1 ".v" (Var "d")) (Num 0)) (Op2 "&" (Var "t3") (Var "M62"));
      Call "_" "secp256k1_i128_rshift" [Addr "cd"; Num 62];
      Call "t4" "secp256k1_i128_to_u64" [Addr "ce"];
      Store Sec (Op2 "[]" (Op1 ".v" (Var "e")) (Num 0)) (Op2 "&" (Var "t4") (Var "M62"));
      Call "_" "secp256k1_i128_rshift" [Addr "ce"; Num 62];
      Call "_" "secp256k1_i128_accum_mul" [Addr "cd"; Var "u"; Var "d2"];
      Call "_" "secp256k1_i128_accum_mul" [Addr "cd"; Var "v"; Var "e2"];
      Call "_" "secp256k1_i128_accum_mul" [Addr "ce"; Var "q"; Var "d2"];
      Call "_" "secp256k1_i128_accum_mul" [Addr "ce"; Var "r"; Var "e2"];
      If (Load Pub (Op2 "[]" (Op1 ".v" (Op1 ".modulus" (Var "modinfo"))) (Num 2))) (seq [Call "_" "secp256k1_i128_accum_mul" [Addr "cd"; Load Pub (Op2 "[]" (Op1 ".v" (Op1 ".modulus" (Var "modinfo"))) (Num 2)); Var "md"];
      Call "_" "secp256k1_i128_accum_mul" [Addr "ce"; Load Pub (Op2 "[]" (Op1 ".v" (Op1 ".modulus" (Var "modinfo"))) (Num 2)); Var "me"]]) (Skip);
      Call "t5" "secp256k1_i128_to_u64" [Addr "cd"];
      Store Sec (Op2 "[]" (Op1 ".v" (Var "d")) (Num 1)) (Op2 "&" (Var "t5") (Var "M62"));
      Call "_" "secp256k1_i128_rshift" [Addr "cd"; Num 62];
      Call "t6" "secp256k1_i128_to_u64" [Addr "ce"];
      Store Sec (Op2 "[]" (Op1 ".v" (Var "e")) (Num 1)) (Op2 "&" (Var "t6") (Var "M62"));
      Call "_" "secp256k1_i128_rshift" [Addr "ce"; Num 62];
      Call "_" "secp256k1_i128_accum_mul" [Addr "cd"; Var "u"; Var "d3"];
      Call "_" "secp256k1_i128_accum_mul" [Addr "cd"; Var "v"; Var "e3"];
      Call "_" "secp256k1_i128_accum_mul" [Addr "ce"; Var "q"; Var "d3"];
      Call "_" "secp256k1_i128_accum_mul" [Addr "ce"; Var "r"; Var "e3"];
      If (Load Pub (Op2 "[]" (Op1 ".v" (Op1 ".modulus" (Var "modinfo"))) (Num 3))) (seq [Call "_" "secp256k1_i128_accum_mul" [Addr "cd"; Load Pub (Op2 "[]" (Op1 ".v" (Op1 ".modulus" (Var "modinfo"))) (Num 3)); Var "md"];
      Call "_" "secp256k1_i128_accum_mul" [Addr "ce"; Load Pub (Op2 "[]" (Op1 ".v" (Op1 ".modulus" (Var "modinfo"))) (Num 3)); Var "me"]]) (Skip);
      Call "t7" "secp256k1_i128_to_u64" [Addr "cd"];
      Store Sec (Op2 "[]" (Op1 ".v" (Var "d")) (Num 2)) (Op2 "&" (Var "t7") (Var "M62"));
      Call "_" "secp256k1_i128_rshift" [Addr "cd"; Num 62];
      Call "t8" "secp256k1_i128_to_u64" [Addr "ce"];
      Store Sec (Op2 "[]" (Op1 ".v" (Var "e")) (Num 2)) (Op2 "&" (Var "t8") (Var "M62"));
      Call "_" "secp256k1_i128_rshift" [Addr "ce"; Num 62];
      Call "_" "secp256k1_i128_accum_mul" [Addr "cd"; Var "u"; Var "d4"];
      Call "_" "secp256k1_i128_accum_mul" [Addr "cd"; Var "v"; Var "e4"];
      Call "_" "secp256k1_i128_accum_mul" [Addr "ce"; Var "q"; Var "d4"];
      Call "_" "secp256k1_i128_accum_mul" [Addr "ce"; Var "r"; Var "e4"];
      Call "_" "secp256k1_i128_accum_mul" [Addr "cd"; Load Pub (Op2 "[]" (Op1 ".v" (Op1 ".modulus" (Var "modinfo"))) (Num 4)); Var "md"];
      Call "_" "secp256k1_i128_accum_mul" [Addr "ce"; Load Pub (Op2 "[]" (Op1 ".v" (Op1 ".modulus" (Var "modinfo"))) (Num 4)); Var "me"];
      Call "t9" "secp256k1_i128_to_u64" [Addr "cd"];
      Store Sec (Op2 "[]" (Op1 ".v" (Var "d")) (Num 3)) (Op2 "&" (Var "t9") (Var "M62"));
      Call "_" "secp256k1_i128_rshift" [Addr "cd"; Num 62];
      Call "t10" "secp256k1_i128_to_u64" [Addr "ce"];
      Store Sec (Op2 "[]" (Op1 ".v" (Var "e")) (Num 3)) (Op2 "&" (Var "t10") (Var "M62"));
      Call "_" "secp256k1_i128_rshift" [Addr "ce"; Num 62];
      Call "t11" "secp256k1_i128_to_i64" [Addr "cd"];
      Store Sec (Op2 "[]" (Op1 ".v" (Var "d")) (Num 4)) (Var "t11");
      Call "t12" "secp256k1_i128_to_i64" [Addr "ce"];
      Store Sec (Op2 "[]" (Op1 ".v" (Var "e")) (Num 4)) (Var "t12")]).
(** src/modinv64_impl.h:500-545 secp256k1_modinv64_update_fg_62 *)
Definition c64_modinv64_update_fg_62 : func := mkfunc "secp256k1_modinv64_update_fg_62" [("f", false); ("g", false); ("t", false)] false
  (seq [Assign "M62" (Op2 ">>" (Num 18446744073709551615) (Num 2));
      Assign "f0" (Load Sec (Op2 "[]" (Op1 ".v" (Var "f")) (Num 0)));
      Assign "f1" (Load Sec (Op2 "[]" (Op1 ".v" (Var "f")) (Num 1)));
      Assign "f2" (Load Sec (Op2 "[]" (Op1 ".v" (Var "f")) (Num 2)));
      Assign "f3" (Load Sec (Op2 "[]" (Op1 ".v" (Var "f")) (Num 3)));
      Assign "f4" (Load Sec (Op2 "[]" (Op1 ".v" (Var "f")) (Num 4)));
      Assign "g0" (Load Sec (Op2 "[]" (Op1 ".v" (Var "g")) (Num 0)));
      Assign "g1" (Load Sec (Op2 "[]" (Op1 ".v" (Var "g")) (Num 1)));
      Assign "g2" (Load Sec (Op2 "[]" (Op1 ".v" (Var "g")) (Num 2)));
      Assign "g3" (Load Sec (Op2 "[]" (Op1 ".v" (Var "g")) (Num 3)));
      Assign "g4" (Load Sec (Op2 "[]" (Op1 ".v" (Var "g")) (Num 4)));
      Assign "u" (Load Sec (Op1 ".u" (Var "t")));
      Assign "v" (Load Sec (Op1 ".v" (Var "t")));
      Assign "q" (Load Sec (Op1 ".q" (Var "t")));
      Assign "r" (Load Sec (Op1 ".r" (Var "t")));
      Call "_" "secp256k1_i128_mul" [Addr "cf"; Var "u"; Var "f0"];
      Call "_" "secp256k1_i128_accum_mul" [Addr "cf"; Var "v"; Var "g0"];
      Call "_" "secp256k1_i128_mul" [Addr "cg"; Var "q"; Var "f0"];
      Call "_" "secp256k1_i128_accum_mul" [Addr "cg"; Var "r"; Var "g0"];
      Call "_" "secp256k1_i128_rshift" [Addr "cf"; Num 62];
      Call "_" "secp256k1_i128_rshift" [Addr "cg"; Num 62];
      Call "_" "secp256k1_i128_accum_mul" [Addr "cf"; Var "u"; Var "f1"];
      Call "_" "secp256k1_i128_accum_mul" [Addr "cf"; Var "v"; Var "g1"];
      Call "_" "secp256k1_i128_accum_mul" [Addr "cg"; Var "q"; Var "f1"];
      Call "_" "secp256k1_i128_accum_mul" [Addr "cg"; Var "r"; Var "g1"];
      Call "t1" "secp256k1_i128_to_u64" [Addr "cf"];
      Store Sec (Op2 "[]" (Op1 ".v" (Var "f")) (Num 0)) (Op2 "&" (Var "t1") (Var "M62"));
      Call "_" "secp256k1_i128_rshift" [Addr "cf"; Num 62];
      Call "t2" "secp256k1_i128_to_u64" [Addr "cg"];
      Store Sec (Op2 "[]" (Op1 ".v" (Var "g")) (Num 0)) (Op2 "&" (Var "t2") (Var "M62"));
      Call "_" "secp256k1_i128_rshift" [Addr "cg"; Num 62];
      Call "_" "secp256k1_i128_accum_mul" [Addr "cf"; Var "u"; Var "f2"];
      Call "_" "secp256k1_i128_accum_mul" [Addr "cf"; Var "v"; Var "g2"];
      Call "_" "secp256k1_i128_accum_mul" [Addr "cg"; Var "q"; Var "f2"];
      Call "_" "secp256k1_i128_accum_mul" [Addr "cg"; Var "r"; Var "g2"];
      Call "t3" "secp256k1_i128_to_u64" [Addr "cf"];
      Store Sec (Op2 "[]" (Op1 ".v" (Var "f")) (Num 1)) (Op2 "&" (Var "t3") (Var "M62"));
      Call "_" "secp256k1_i128_rshift" [Addr "cf"; Num 62];
      Call "t4" "secp256k1_i128_to_u64" [Addr "cg"];
      Store Sec (Op2 "[]" (Op1 ".v" (Var "g")) (Num 1)) (Op2 "&" (Var "t4") (Var "M62"));
      Call "_" "secp256k1_i128_rshift" [Addr "cg"; Num 62];
      Call "_" "secp256k1_i128_accum_mul" [Addr "cf"; Var "u"; Var "f3"];
      Call "_" "secp256k1_i128_accum_mul" [Addr "cf"; Var "v"; Var "g3"];
      Call "_" "secp256k1_i128_accum_mul" [Addr "cg"; Var "q"; Var "f3"];
      Call "_" "secp256k1_i128_accum_mul" [Addr "cg"; Var "r"; Var "g3"];
      Call "t5" "secp256k1_i128_to_u64" [Addr "cf"];
      Store Sec (Op2 "[]" (Op1 ".v" (Var "f")) (Num 2)) (Op2 "&" (Var "t5") (Var "M62"));
      Call "_" "secp256k1_i128_rshift" [Addr "cf"; Num 62];
      Call "t6" "secp256k1_i128_to_u64" [Addr "cg"];
      Store Sec (Op2 "[]" (Op1 ".v" (Var "g")) (Num 2)) (Op2 "&" (Var "t6") (Var "M62"));
      Call "_" "secp256k1_i128_rshift" [Addr "cg"; Num 62];
      Call "_" "secp256k1_i128_accum_mul" [Addr "cf"; Var "u"; Var "f4"];
      Call "_" "secp256k1_i128_accum_mul" [Addr "cf"; Var "v"; Var "g4"];
      Call "_" "secp256k1_i128_accum_mul" [Addr "cg"; Var "q"; Var "f4"];
      Call "_" "secp256k1_i128_accum_mul" [Addr "cg"; Var "r"; Var "g4"];
      Call "t7" "secp256k1_i128_to_u64" [Addr "cf"];
      Store Sec (Op2 "[]" (Op1 ".v" (Var "f")) (Num 3)) (Op2 "&" (Var "t7") (Var "M62"));
      Call "_" "secp256k1_i128_rshift" [Addr "cf"; Num 62];
      Call "t8" "secp256k1_i128_to_u64" [Addr "cg"];
      Store Sec (Op2 "[]" (Op1 ".v" (Var "g")) (Num 3)) (Op2 "&" (Var "t8") (Var "M62"));
      Call "_" "secp256k1_i128_rshift" [Addr "cg"; Num 62];
      Call "t9" "secp256k1_i128_to_i64" [Addr "cf"];
      Store Sec (Op2 "[]" (Op1 ".v" (Var "f")) (Num 4)) (Var "t9");
      Call "t10" "secp256k1_i128_to_i64" [Addr "cg"];
      Store Sec (Op2 "[]" (Op1 ".v" (Var "g")) (Num 4)) (Var "t10")]).
(** src/modinv64_impl.h:88-154 secp256k1_modinv64_normalize_62@SP *)
Definition c64_modinv64_normalize_62__SP : func := mkfunc "secp256k1_modinv64_normalize_62@SP" [("r", false); ("sign", true); ("modinfo", false)] false
  (seq [Assign "M62" (Op1 "(int64_t)" (Op2 ">>" (Num 18446744073709551615) (Num 2)));
      Assign "r0" (Load Sec (Op2 "[]" (Op1 ".v" (Var "r")) (Num 0)));
      Assign "r1" (Load Sec (Op2 "[]" (Op1 ".v" (Var "r")) (Num 1)));
      Assign "r2" (Load Sec (Op2 "[]" (Op1 ".v" (Var "r")) (Num 2)));
      Assign "r3" (Load Sec (Op2 "[]" (Op1 ".v" (Var "r")) (Num 3)));
      Assign "r4" (Load Sec (Op2 "[]" (Op1 ".v" (Var "r")) (Num 4)));
      Assign "cond_add" (Op2 ">>" (Var "r4") (Num 63));
      Assign "r0" (Op2 "+" (Var "r0") (Op2 "&" (Load Pub (Op2 "[]" (Op1 ".v" (Op1 ".modulus" (Var "modinfo"))) (Num 0))) (Var "cond_add")));
      Assign "r1" (Op2 "+" (Var "r1") (Op2 "&" (Load Pub (Op2 "[]" (Op1 ".v" (Op1 ".modulus" (Var "modinfo"))) (Num 1))) (Var "cond_add")));
      Assign "r2" (Op2 "+" (Var "r2") (Op2 "&" (Load Pub (Op2 "[]" (Op1 ".v" (Op1 ".modulus" (Var "modinfo"))) (Num 2))) (Var "cond_add")));
      Assign "r3" (Op2 "+" (Var "r3") (Op2 "&" (Load Pub (Op2 "[]" (Op1 ".v" (Op1 ".modulus" (Var "modinfo"))) (Num 3))) (Var "cond_add")));
      Assign "r4" (Op2 "+" (Var "r4") (Op2 "&" (Load Pub (Op2 "[]" (Op1 ".v" (Op1 ".modulus" (Var "modinfo"))) (Num 4))) (Var "cond_add")));
      Assign "cond_negate" (Op2 ">>" (Var "sign") (Num 63));
      Assign "r0" (Op2 "-" (Op2 "^" (Var "r0") (Var "cond_negate")) (Var "cond_negate"));
      Assign "r1" (Op2 "-" (Op2 "^" (Var "r1") (Var "cond_negate")) (Var "cond_negate"));
      Assign "r2" (Op2 "-" (Op2 "^" (Var "r2") (Var "cond_negate")) (Var "cond_negate"));
      Assign "r3" (Op2 "-" (Op2 "^" (Var "r3") (Var "cond_negate")) (Var "cond_negate"));
      Assign "r4" (Op2 "-" (Op2 "^" (Var "r4") (Var "cond_negate")) (Var "cond_negate"));
      Assign "r1" (Op2 "+" (Var "r1") (Op2 ">>" (Var "r0") (Num 62)));
      Assign "r0" (Op2 "&" (Var "r0") (Var "M62"));
      Assign "r2" (Op2 "+" (Var "r2") (Op2 ">>" (Var "r1") (Num 62)));
      Assign "r1" (Op2 "&" (Var "r1") (Var "M62"));
      Assign "r3" (Op2 "+" (Var "r3") (Op2 ">>" (Var "r2") (Num 62)));
      Assign "r2" (Op2 "&" (Var "r2") (Var "M62"));
      Assign "r4" (Op2 "+" (Var "r4") (Op2 ">>" (Var "r3") (Num 62)));
      Assign "r3" (Op2 "&" (Var "r3") (Var "M62"));
      Assign "cond_add" (Op2 ">>" (Var "r4") (Num 63));
      Assign "r0" (Op2 "+" (Var "r0") (Op2 "&" (Load Pub (Op2 "[]" (Op1 ".v" (Op1 ".modulus" (Var "modinfo"))) (Num 0))) (Var "cond_add")));
      Assign "r1" (Op2 "+" (Var "r1") (Op2 "&" (Load Pub (Op2 "[]" (Op1 ".v" (Op1 ".modulus" (Var "modinfo"))) (Num 1))) (Var "cond_add")));
      Assign "r2" (Op2 "+" (Var "r2") (Op2 "&" (Load Pub (Op2 "[]" (Op1 ".v" (Op1 ".modulus" (Var "modinfo"))) (Num 2))) (Var "cond_add")));
      Assign "r3" (Op2 "+" (Var "r3") (Op2 "&" (Load Pub (Op2 "[]" (Op1 ".v" (Op1 ".modulus" (Var "modinfo"))) (Num 3))) (Var "cond_add")));
      Assign "r4" (Op2 "+" (Var "r4") (Op2 "&" (Load Pub (Op2 "[]" (Op1 ".v" (Op1 ".modulus" (Var "modinfo"))) (Num 4))) (Var "cond_add")));
      Assign "r1" (Op2 "+" (Var "r1") (Op2 ">>" (Var "r0") (Num 62)));
      Assign "r0" (Op2 "&" (Var "r0") (Var "M62"));
      Assign "r2" (Op2 "+" (Var "r2") (Op2 ">>" (Var "r1") (Num 62)));
      Assign "r1" (Op2 "&" (Var "r1") (Var "M62"));
      Assign "r3" (Op2 "+" (Var "r3") (Op2 ">>" (Var "r2") (Num 62)));
      Assign "r2" (Op2 "&" (Var "r2") (Var "M62"));
      Assign "r4" (Op2 "+" (Var "r4") (Op2 ">>" (Var "r3") (Num 62)));
      Assign "r3" (Op2 "&" (Var "r3") (Var "M62"));
      Store Sec (Op2 "[]" (Op1 ".v" (Var "r")) (Num 0)) (Var "r0");
      Store Sec (Op2 "[]" (Op1 ".v" (Var "r")) (Num 1)) (Var "r1");
      Store Sec (Op2 "[]" (Op1 ".v" (Var "r")) (Num 2)) (Var "r2");
      Store Sec (Op2 "[]" (Op1 ".v" (Var "r")) (Num 3)) (Var "r3");
      Store Sec (Op2 "[]" (Op1 ".v" (Var "r")) (Num 4)) (Var "r4")]).
(** src/modinv64_impl.h:588-634 secp256k1_modinv64@SP *)
Definition c64_modinv64__SP : func := mkfunc "secp256k1_modinv64@SP" [("x", false); ("modinfo", false)] false
  (seq [Prim "init" [Addr "d"];
      Prim "init" [Addr "e"];
      Prim "copy" [Addr "f"; Op1 ".modulus" (Var "modinfo")];
      Prim "copy" [Addr "g"; Var "x"];
      Assign "zeta" (Op1 "-" (Num 1));
      Assign "i" (Num 0);
      Loop (If (Op2 "<" (Var "i") (Num 10)) (seq [Call "t1" "secp256k1_modinv64_divsteps_59" [Var "zeta"; Load Sec (Op2 "[]" (Op1 ".v" (Addr "f")) (Num 0)); Load Sec (Op2 "[]" (Op1 ".v" (Addr "g")) (Num 0)); Addr "t"];
      Assign "zeta" (Var "t1");
      Call "_" "secp256k1_modinv64_update_de_62@SSSP" [Addr "d"; Addr "e"; Addr "t"; Var "modinfo"];
      Call "_" "secp256k1_modinv64_update_fg_62" [Addr "f"; Addr "g"; Addr "t"];
      Assign "i" (Op2 "+" (Var "i") (Num 1))]) (Break));
      Call "_" "secp256k1_modinv64_normalize_62@SP" [Addr "d"; Load Sec (Op2 "[]" (Op1 ".v" (Addr "f")) (Num 4)); Var "modinfo"];
      Prim "copy" [Var "x"; Addr "d"]]).
(** src/field_5x52_impl.h:443-461 secp256k1_fe_from_signed62 *)
Definition c64_fe_from_signed62 : func := mkfunc "secp256k1_fe_from_signed62" [("r", false); ("a", false)] false
  (seq [Assign "M52" (Op2 ">>" (Num 18446744073709551615) (Num 12));
      Assign "a0" (Load Sec (Op2 "[]" (Op1 ".v" (Var "a")) (Num 0)));
      Assign "a1" (Load Sec (Op2 "[]" (Op1 ".v" (Var "a")) (Num 1)));
      Assign "a2" (Load Sec (Op2 "[]" (Op1 ".v" (Var "a")) (Num 2)));
      Assign "a3" (Load Sec (Op2 "[]" (Op1 ".v" (Var "a")) (Num 3)));
      Assign "a4" (Load Sec (Op2 "[]" (Op1 ".v" (Var "a")) (Num 4)));
      Store Sec (Op2 "[]" (Op1 ".n" (Var "r")) (Num 0)) (Op2 "&" (Var "a0") (Var "M52"));
      Store Sec (Op2 "[]" (Op1 ".n" (Var "r")) (Num 1)) (Op2 "&" (Op2 "|" (Op2 ">>" (Var "a0") (Num 52)) (Op2 "<<" (Var "a1") (Num 10))) (Var "M52"));
      Store Sec (Op2 "[]" (Op1 ".n" (Var "r")) (Num 2)) (Op2 "&" (Op2 "|" (Op2 ">>" (Var "a1") (Num 42)) (Op2 "<<" (Var "a2") (Num 20))) (Var "M52"));
      Store Sec (Op2 "[]" (Op1 ".n" (Var "r")) (Num 3)) (Op2 "&" (Op2 "|" (Op2 ">>" (Var "a2") (Num 32)) (Op2 "<<" (Var "a3") (Num 30))) (Var "M52"));
      Store Sec (Op2 "[]" (Op1 ".n" (Var "r")) (Num 4)) (Op2 "|" (Op2 ">>" (Var "a3") (Num 22)) (Op2 "<<" (Var "a4") (Num 40)))]).
(** src/field_5x52_impl.h:479-487 secp256k1_fe_impl_inv *)
Definition c64_fe_impl_inv : func := mkfunc "secp256k1_fe_impl_inv" [("r", false); ("x", false)] false
  (seq [Prim "copy" [Addr "tmp"; Var "x"];
      Call "_" "secp256k1_fe_impl_normalize" [Addr "tmp"];
      Call "_" "secp256k1_fe_to_signed62" [Addr "s"; Addr "tmp"];
      Call "_" "secp256k1_modinv64@SP" [Addr "s"; Op0 "secp256k1_const_modinfo_fe"];
      Call "_" "secp256k1_fe_from_signed62" [Var "r"; Addr "s"]]).
(** src/group_impl.h:159-175 secp256k1_ge_set_gej *)
Definition c64_ge_set_gej : func := mkfunc "secp256k1_ge_set_gej" [("r", false); ("a", false)] false
  (seq [Store Sec (Op1 ".infinity" (Var "r")) (Load Sec (Op1 ".infinity" (Var "a")));
      Call "_" "secp256k1_fe_impl_inv" [Op1 ".z" (Var "a"); Op1 ".z" (Var "a")];
      Call "_" "secp256k1_fe_impl_sqr" [Addr "z2"; Op1 ".z" (Var "a")];
      Call "_" "secp256k1_fe_impl_mul" [Addr "z3"; Op1 ".z" (Var "a"); Addr "z2"];
      Call "_" "secp256k1_fe_impl_mul" [Op1 ".x" (Var "a"); Op1 ".x" (Var "a"); Addr "z2"];
      Call "_" "secp256k1_fe_impl_mul" [Op1 ".y" (Var "a"); Op1 ".y" (Var "a"); Addr "z3"];
      Call "_" "secp256k1_fe_impl_set_int" [Op1 ".z" (Var "a"); Num 1];
      Prim "copy" [Op1 ".x" (Var "r"); Op1 ".x" (Var "a")];
      Prim "copy" [Op1 ".y" (Var "r"); Op1 ".y" (Var "a")]]).
(** src/group_impl.h:339-341 secp256k1_gej_clear *)
Definition c64_gej_clear : func := mkfunc "secp256k1_gej_clear" [("r", false)] false
  (Prim "secp256k1_memclear" [Var "r"; Op0 "sizeof ( secp256k1_gej )"]).
(** src/secp256k1.c:591-602 secp256k1_ec_pubkey_create_helper *)
Definition c64_ec_pubkey_create_helper : func := mkfunc "secp256k1_ec_pubkey_create_helper" [("ecmult_gen_ctx", false); ("seckey_scalar", false); ("p", false); ("seckey", false)] true
  (seq [Call "t1" "secp256k1_scalar_set_b32_seckey" [Var "seckey_scalar"; Var "seckey"];
      Assign "ret" (Var "t1");
      Call "_" "secp256k1_scalar_cmov@SP" [Var "seckey_scalar"; Op0 "secp256k1_scalar_one"; Op1 "!" (Var "ret")];
      Call "_" "secp256k1_ecmult_gen" [Var "ecmult_gen_ctx"; Addr "pj"; Var "seckey_scalar"];
      Call "_" "secp256k1_ge_set_gej" [Var "p"; Addr "pj"];
      Call "_" "secp256k1_gej_clear" [Addr "pj"];
      Return (Var "ret")]).
(** src/field_5x52_impl.h:428-433 secp256k1_fe_impl_to_storage *)
Definition c64_fe_impl_to_storage : func := mkfunc "secp256k1_fe_impl_to_storage" [("r", false); ("a", false)] false
  (seq [Store Sec (Op2 "[]" (Op1 ".n" (Var "r")) (Num 0)) (Op2 "|" (Load Sec (Op2 "[]" (Op1 ".n" (Var "a")) (Num 0))) (Op2 "<<" (Load Sec (Op2 "[]" (Op1 ".n" (Var "a")) (Num 1))) (Num 52)));
      Store Sec (Op2 "[]" (Op1 ".n" (Var "r")) (Num 1)) (Op2 "|" (Op2 ">>" (Load Sec (Op2 "[]" (Op1 ".n" (Var "a")) (Num 1))) (Num 12)) (Op2 "<<" (Load Sec (Op2 "[]" (Op1 ".n" (Var "a")) (Num 2))) (Num 40)));
      Store Sec (Op2 "[]" (Op1 ".n" (Var "r")) (Num 2)) (Op2 "|" (Op2 ">>" (Load Sec (Op2 "[]" (Op1 ".n" (Var "a")) (Num 2))) (Num 24)) (Op2 "<<" (Load Sec (Op2 "[]" (Op1 ".n" (Var "a")) (Num 3))) (Num 28)));
      Store Sec (Op2 "[]" (Op1 ".n" (Var "r")) (Num 3)) (Op2 "|" (Op2 ">>" (Load Sec (Op2 "[]" (Op1 ".n" (Var "a")) (Num 3))) (Num 36)) (Op2 "<<" (Load Sec (Op2 "[]" (Op1 ".n" (Var "a")) (Num 4))) (Num 16)))]).
(** src/group_impl.h:877-888 secp256k1_ge_to_storage *)
Definition c64_ge_to_storage : func := mkfunc "secp256k1_ge_to_storage" [("r", false); ("a", false)] false
  (seq [Prim "copy" [Addr "x"; Op1 ".x" (Var "a")];
      Call "_" "secp256k1_fe_impl_normalize" [Addr "x"];
      Prim "copy" [Addr "y"; Op1 ".y" (Var "a")];
      Call "_" "secp256k1_fe_impl_normalize" [Addr "y"];
      Call "_" "secp256k1_fe_impl_to_storage" [Op1 ".x" (Var "r"); Addr "x"];
      Call "_" "secp256k1_fe_impl_to_storage" [Op1 ".y" (Var "r"); Addr "y"]]).
(** src/group_impl.h:975-985 secp256k1_ge_to_bytes *)
Definition c64_ge_to_bytes : func := mkfunc "secp256k1_ge_to_bytes" [("buf", false); ("a", false)] false
  (seq [Call "_" "secp256k1_ge_to_storage" [Addr "s"; Var "a"];
      Prim "memcpy" [Var "buf"; Addr "s"; Num 64]]).
(** src/secp256k1.c:246-248 secp256k1_pubkey_save *)
Definition c64_pubkey_save : func := mkfunc "secp256k1_pubkey_save" [("pubkey", false); ("ge", false)] false
  (Call "_" "secp256k1_ge_to_bytes" [Op1 ".data" (Var "pubkey"); Var "ge"]).
(** src/util.h:208-220 secp256k1_memczero *)
Definition c64_memczero : func := mkfunc "secp256k1_memczero" [("s", false); ("len", false); ("flag", true)] false
  (seq [Assign "p" (Var "s");
      Assign "vflag" (Var "flag");
      Assign "mask" (Op1 "-" (Op1 "(unsigned char)" (Var "vflag")));
      Loop (If (Var "len") (seq [Store Sec (Var "p") (Op2 "&" (Load Sec (Var "p")) (Op1 "~" (Var "mask")));
      Assign "p" (Op2 "+" (Var "p") (Num 1));
      Assign "len" (Op2 "-" (Var "len") (Num 1))]) (Break))]).
(** src/secp256k1.c:604-620 secp256k1_ec_pubkey_create *)
Definition c64_ec_pubkey_create : func := mkfunc "secp256k1_ec_pubkey_create" [("ctx", false); ("pubkey", false); ("seckey", false)] true
  (seq [Assign "ret" (Num 0);
      If (Op1 "!" (Op2 "!=" (Var "pubkey") (Num 0))) (seq [Prim "callback" [];
      Return (Num 0)]) (Skip);
      Prim "memset" [Var "pubkey"; Num 0; Op0 "sizeof ( * pubkey )"];
      Call "t1" "secp256k1_ecmult_gen_context_is_built" [Op1 ".ecmult_gen_ctx" (Var "ctx")];
      If (Op1 "!" (Var "t1")) (seq [Prim "callback" [];
      Return (Num 0)]) (Skip);
      If (Op1 "!" (Op2 "!=" (Var "seckey") (Num 0))) (seq [Prim "callback" [];
      Return (Num 0)]) (Skip);
      Call "t2" "secp256k1_ec_pubkey_create_helper" [Op1 ".ecmult_gen_ctx" (Var "ctx"); Addr "seckey_scalar"; Addr "p"; Var "seckey"];
      Assign "ret" (Var "t2");
      Call "_" "secp256k1_pubkey_save" [Var "pubkey"; Addr "p"];
      Call "_" "secp256k1_memczero" [Var "pubkey"; Op0 "sizeof ( * pubkey )"; Op1 "!" (Var "ret")];
      Call "_" "secp256k1_scalar_clear" [Addr "seckey_scalar"];
      Return (Var "ret")]).
(** src/scalar_4x64_impl.h:173-192 secp256k1_scalar_negate *)
Definition c64_scalar_negate : func := mkfunc "secp256k1_scalar_negate" [("r", false); ("a", false)] false
  (seq [Call "t1" "secp256k1_scalar_is_zero" [Var "a"];
      Assign "nonzero" (Op2 "*" (Num 18446744073709551615) (Op2 "==" (Var "t1") (Num 0)));
      Call "_" "secp256k1_u128_from_u64" [Addr "t"; Op1 "~" (Load Sec (Op2 "[]" (Op1 ".d" (Var "a")) (Num 0)))];
      Call "_" "secp256k1_u128_accum_u64" [Addr "t"; Op2 "+" (Op1 "(uint64_t)" (Num 13822214165235122497)) (Num 1)];
      Call "t2" "secp256k1_u128_to_u64" [Addr "t"];
      Store Sec (Op2 "[]" (Op1 ".d" (Var "r")) (Num 0)) (Op2 "&" (Var "t2") (Var "nonzero"));
      Call "_" "secp256k1_u128_rshift" [Addr "t"; Num 64];
      Call "_" "secp256k1_u128_accum_u64" [Addr "t"; Op1 "~" (Load Sec (Op2 "[]" (Op1 ".d" (Var "a")) (Num 1)))];
      Call "_" "secp256k1_u128_accum_u64" [Addr "t"; Op1 "(uint64_t)" (Num 13451932020343611451)];
      Call "t3" "secp256k1_u128_to_u64" [Addr "t"];
      Store Sec (Op2 "[]" (Op1 ".d" (Var "r")) (Num 1)) (Op2 "&" (Var "t3") (Var "nonzero"));
      Call "_" "secp256k1_u128_rshift" [Addr "t"; Num 64];
      Call "_" "secp256k1_u128_accum_u64" [Addr "t"; Op1 "~" (Load Sec (Op2 "[]" (Op1 ".d" (Var "a")) (Num 2)))];
      Call "_" "secp256k1_u128_accum_u64" [Addr "t"; Op1 "(uint64_t)" (Num 18446744073709551614)];
      Call "t4" "secp256k1_u128_to_u64" [Addr "t"];
      Store Sec (Op2 "[]" (Op1 ".d" (Var "r")) (Num 2)) (Op2 "&" (Var "t4") (Var "nonzero"));
      Call "_" "secp256k1_u128_rshift" [Addr "t"; Num 64];
      Call "_" "secp256k1_u128_accum_u64" [Addr "t"; Op1 "~" (Load Sec (Op2 "[]" (Op1 ".d" (Var "a")) (Num 3)))];
      Call "_" "secp256k1_u128_accum_u64" [Addr "t"; Op1 "(uint64_t)" (Num 18446744073709551615)];
      Call "t5" "secp256k1_u128_to_u64" [Addr "t"];
      Store Sec (Op2 "[]" (Op1 ".d" (Var "r")) (Num 3)) (Op2 "&" (Var "t5") (Var "nonzero"))]).
(** src/util.h:428-437 secp256k1_write_be64 *)
Definition c64_write_be64 : func := mkfunc "secp256k1_write_be64" [("p", false); ("x", true)] false
  (seq [Store Sec (Op2 "[]" (Var "p") (Num 7)) (Var "x");
      Store Sec (Op2 "[]" (Var "p") (Num 6)) (Op2 ">>" (Var "x") (Num 8));
      Store Sec (Op2 "[]" (Var "p") (Num 5)) (Op2 ">>" (Var "x") (Num 16));
      Store Sec (Op2 "[]" (Var "p") (Num 4)) (Op2 ">>" (Var "x") (Num 24));
      Store Sec (Op2 "[]" (Var "p") (Num 3)) (Op2 ">>" (Var "x") (Num 32));
      Store Sec (Op2 "[]" (Var "p") (Num 2)) (Op2 ">>" (Var "x") (Num 40));
      Store Sec (Op2 "[]" (Var "p") (Num 1)) (Op2 ">>" (Var "x") (Num 48));
      Store Sec (Op2 "[]" (Var "p") (Num 0)) (Op2 ">>" (Var "x") (Num 56))]).
(** src/scalar_4x64_impl.h:158-165 secp256k1_scalar_get_b32 *)
Definition c64_scalar_get_b32 : func := mkfunc "secp256k1_scalar_get_b32" [("bin", false); ("a", false)] false
  (seq [Call "_" "secp256k1_write_be64" [Op2 "[]" (Var "bin") (Num 0); Load Sec (Op2 "[]" (Op1 ".d" (Var "a")) (Num 3))];
      Call "_" "secp256k1_write_be64" [Op2 "[]" (Var "bin") (Num 8); Load Sec (Op2 "[]" (Op1 ".d" (Var "a")) (Num 2))];
      Call "_" "secp256k1_write_be64" [Op2 "[]" (Var "bin") (Num 16); Load Sec (Op2 "[]" (Op1 ".d" (Var "a")) (Num 1))];
      Call "_" "secp256k1_write_be64" [Op2 "[]" (Var "bin") (Num 24); Load Sec (Op2 "[]" (Op1 ".d" (Var "a")) (Num 0))]]).
(** src/secp256k1.c:622-635 secp256k1_ec_seckey_negate *)
Definition c64_ec_seckey_negate : func := mkfunc "secp256k1_ec_seckey_negate" [("ctx", false); ("seckey", false)] true
  (seq [Assign "ret" (Num 0);
      If (Op1 "!" (Op2 "!=" (Var "seckey") (Num 0))) (seq [Prim "callback" [];
      Return (Num 0)]) (Skip);
      Call "t1" "secp256k1_scalar_set_b32_seckey" [Addr "sec"; Var "seckey"];
      Assign "ret" (Var "t1");
      Call "_" "secp256k1_scalar_cmov@SP" [Addr "sec"; Op0 "secp256k1_scalar_zero"; Op1 "!" (Var "ret")];
      Call "_" "secp256k1_scalar_negate" [Addr "sec"; Addr "sec"];
      Call "_" "secp256k1_scalar_get_b32" [Var "seckey"; Addr "sec"];
      Call "_" "secp256k1_scalar_clear" [Addr "sec"];
      Return (Var "ret")]).
(** src/eckey_impl.h:58-61 secp256k1_eckey_privkey_tweak_add *)
Definition c64_eckey_privkey_tweak_add : func := mkfunc "secp256k1_eckey_privkey_tweak_add" [("key", false); ("tweak", false)] true
  (seq [Call "_" "secp256k1_scalar_add" [Var "key"; Var "key"; Var "tweak"];
      Call "t1" "secp256k1_scalar_is_zero" [Var "key"];
      Return (Op1 "!" (Var "t1"))]).
(** src/secp256k1.c:653-662 secp256k1_ec_seckey_tweak_add_helper *)
Definition c64_ec_seckey_tweak_add_helper : func := mkfunc "secp256k1_ec_seckey_tweak_add_helper" [("sec", false); ("tweak32", false)] true
  (seq [Store Sec (Addr "overflow") (Num 0);
      Assign "ret" (Num 0);
      Call "_" "secp256k1_scalar_set_b32" [Addr "term"; Var "tweak32"; Addr "overflow"];
      Call "t1" "secp256k1_eckey_privkey_tweak_add" [Var "sec"; Addr "term"];
      Assign "ret" (Op2 "&" (Op1 "!" (Load Sec (Addr "overflow"))) (Var "t1"));
      Call "_" "secp256k1_scalar_clear" [Addr "term"];
      Return (Var "ret")]).
(** src/secp256k1.c:664-678 secp256k1_ec_seckey_tweak_add *)
Definition c64_ec_seckey_tweak_add : func := mkfunc "secp256k1_ec_seckey_tweak_add" [("ctx", false); ("seckey", false); ("tweak32", false)] true
  (seq [Assign "ret" (Num 0);
      If (Op1 "!" (Op2 "!=" (Var "seckey") (Num 0))) (seq [Prim "callback" [];
      Return (Num 0)]) (Skip);
      If (Op1 "!" (Op2 "!=" (Var "tweak32") (Num 0))) (seq [Prim "callback" [];
      Return (Num 0)]) (Skip);
      Call "t1" "secp256k1_scalar_set_b32_seckey" [Addr "sec"; Var "seckey"];
      Assign "ret" (Var "t1");
      Call "t2" "secp256k1_ec_seckey_tweak_add_helper" [Addr "sec"; Var "tweak32"];
      Assign "ret" (Op2 "&" (Var "ret") (Var "t2"));
      Call "_" "secp256k1_scalar_cmov@SP" [Addr "sec"; Op0 "secp256k1_scalar_zero"; Op1 "!" (Var "ret")];
      Call "_" "secp256k1_scalar_get_b32" [Var "seckey"; Addr "sec"];
      Call "_" "secp256k1_scalar_clear" [Addr "sec"];
      Return (Var "ret")]).
(** src/int128_native_impl.h:32-34 secp256k1_u128_hi_u64 *)
Definition c64_u128_hi_u64 : func := mkfunc "secp256k1_u128_hi_u64" [("a", false)] true
  (Return (Op1 "(uint64_t)" (Op2 ">>" (Load Sec (Var "a")) (Num 64)))).
(** src/scalar_4x64_impl.h:678-846 secp256k1_scalar_mul_512 *)
Definition c64_scalar_mul_512 : func := mkfunc "secp256k1_scalar_mul_512" [("l8", false); ("a", false); ("b", false)] false
  (seq [Assign "c0" (Num 0);
      Assign "c1" (Num 0);
      Assign "c2" (Num 0);
      Call "_" "secp256k1_u128_mul" [Addr "t"; Load Sec (Op2 "[]" (Op1 ".d" (Var "a")) (Num 0)); Load Sec (Op2 "[]" (Op1 ".d" (Var "b")) (Num 0))];
      Call "t1" "secp256k1_u128_hi_u64" [Addr "t"];
      Assign "th" (Var "t1");
      Call "t2" "secp256k1_u128_to_u64" [Addr "t"];
      Assign "tl" (Var "t2");
      Assign "c0" (Op2 "+" (Var "c0") (Var "tl"));
      Assign "th" (Op2 "+" (Var "th") (Op2 "<" (Var "c0") (Var "tl")));
      Assign "c1" (Op2 "+" (Var "c1") (Var "th"));
      Store Sec (Op2 "[]" (Var "l8") (Num 0)) (Var "c0");
      Assign "c0" (Var "c1");
      Assign "c1" (Num 0);
      Call "_" "secp256k1_u128_mul" [Addr "t_2"; Load Sec (Op2 "[]" (Op1 ".d" (Var "a")) (Num 0)); Load Sec (Op2 "[]" (Op1 ".d" (Var "b")) (Num 1))];
      Call "t3" "secp256k1_u128_hi_u64" [Addr "t_2"];
      Assign "th_2" (Var "t3");
      Call "t4" "secp256k1_u128_to_u64" [Addr "t_2"];
      Assign "tl_2" (Var "t4");
      Assign "c0" (Op2 "+" (Var "c0") (Var "tl_2"));
      Assign "th_2" (Op2 "+" (Var "th_2") (Op2 "<" (Var "c0") (Var "tl_2")));
      Assign "c1" (Op2 "+" (Var "c1") (Var "th_2"));
      Assign "c2" (Op2 "+" (Var "c2") (Op2 "<" (Var "c1") (Var "th_2")));
      Call "_" "secp256k1_u128_mul" [Addr "t_3"; Load Sec (Op2 "[]" (Op1 ".d" (Var "a")) (Num 1)); Load Sec (Op2 "[]" (Op1 ".d" (Var "b")) (Num 0))];
      Call "t5" "secp256k1_u128_hi_u64" [Addr "t_3"];
      Assign "th_3" (Var "t5");
      Call "t6" "secp256k1_u128_to_u64" [Addr "t_3"];
      Assign "tl_3" (Var "t6");
      Assign "c0" (Op2 "+" (Var "c0") (Var "tl_3"));
      Assign "th_3" (Op2 "+" (Var "th_3") (Op2 "<" (Var "c0") (Var "tl_3")));
      Assign "c1" (Op2 "+" (Var "c1") (Var "th_3"));
      Assign "c2" (Op2 "+" (Var "c2") (Op2 "<" (Var "c1") (Var "th_3")));
      Store Sec (Op2 "[]" (Var "l8") (Num 1)) (Var "c0");
      Assign "c0" (Var "c1");
      Assign "c1" (Var "c2");
      Assign "c2" (Num 0);
      Call "_" "secp256k1_u128_mul" [Addr "t_4"; Load Sec (Op2 "[]" (Op1 ".d" (Var "a")) (Num 0)); Load Sec (Op2 "[]" (Op1 ".d" (Var "b")) (Num 2))];
      Call "t7" "secp256k1_u128_hi_u64" [Addr "t_4"];
      Assign "th_4" (Var "t7");
      Call "t8" "secp256k1_u128_to_u64" [Addr "t_4"];
      Assign "tl_4" (Var "t8");
      Assign "c0" (Op2 "+" (Var "c0") (Var "tl_4"));
      Assign "th_4" (Op2 "+" (Var "th_4") (Op2 "<" (Var "c0") (Var "tl_4")));
      Assign "c1" (Op2 "+" (Var "c1") (Var "th_4"));
      Assign "c2" (Op2 "+" (Var "c2") (Op2 "<" (Var "c1") (Var "th_4")));
      Call "_" "secp256k1_u128_mul" [Addr "t_5"; Load Sec (Op2 "[]" (Op1 ".d" (Var "a")) (Num 1)); Load Sec (Op2 "[]" (Op1 ".d" (Var "b")) (Num 1))];
      Call "t9" "secp256k1_u128_hi_u64" [Addr "t_5"];
      Assign "th_5" (Var "t9");
      Call "t10" "secp256k1_u128_to_u64" [Addr "t_5"];
      Assign "tl_5" (Var "t10");
      Assign "c0" (Op2 "+" (Var "c0") (Var "tl_5"));
      Assign "th_5" (Op2 "+" (Var "th_5") (Op2 "<" (Var "c0") (Var "tl_5")));
      Assign "c1" (Op2 "+" (Var "c1") (Var "th_5"));
      Assign "c2" (Op2 "+" (Var "c2") (Op2 "<" (Var "c1") (Var "th_5")));
      Call "_" "secp256k1_u128_mul" [Addr "t_6"; Load Sec (Op2 "[]" (Op1 ".d" (Var "a")) (Num 2)); Load Sec (Op2 "[]" (Op1 ".d" (Var "b")) (Num 0))];
      Call "t11" "secp256k1_u128_hi_u64" [Addr "t_6"];
      Assign "th_6" (Var "t11");
      Call "t12" "secp256k1_u128_to_u64" [Addr "t_6"];
      Assign "tl_6" (Var "t12");
      Assign "c0" (Op2 "+" (Var "c0") (Var "tl_6"));
      Assign "th_6" (Op2 "+" (Var "th_6") (Op2 "<" (Var "c0") (Var "tl_6")));
      Assign "c1" (Op2 "+" (Var "c1") (Var "th_6"));
      Assign "c2" (Op2 "+" (Var "c2") (Op2 "<" (Var "c1") (Var "th_6")));
      Store Sec (Op2 "[]" (Var "l8") (Num 2)) (Var "c0");
      Assign "c0" (Var "c1");
      Assign "c1" (Var "c2");
      Assign "c2" (Num 0);
      Call "_" "secp256k1_u128_mul" [Addr "t_7"; Load Sec (Op2 "[]" (Op1 ".d" (Var "a")) (Num 0)); Load Sec (Op2 "[]" (Op1 ".d" (Var "b")) (Num 3))];
      Call "t13" "secp256k1_u128_hi_u64" [Addr "t_7"];
      Assign "th_7" (Var "t13");
      Call "t14" "secp256k1_u128_to_u64" [Addr "t_7"];
      Assign "tl_7" (Var "t14");
      Assign "c0" (Op2 "+" (Var "c0") (Var "tl_7"));
      Assign "th_7" (Op2 "+" (Var "th_7") (Op2 "<" (Var "c0") (Var "tl_7")));
      Assign "c1" (Op2 "+" (Var "c1") (Var "th_7"));
      Assign "c2" (Op2 "+" (Var "c2") (Op2 "<" (Var "c1") (Var "th_7")));
      Call "_" "secp256k1_u128_mul" [Addr "t_8"; Load Sec (Op2 "[]" (Op1 ".d" (Var "a")) (Num 1)); Load Sec (Op2 "[]" (Op1 ".d" (Var "b")) (Num 2))];
      Call "t15" "secp256k1_u128_hi_u64" [Addr "t_8"];
      Assign "th_8" (Var "t15");
      Call "t16" "secp256k1_u128_to_u64" [Addr "t_8"];
      Assign "tl_8" (Var "t16");
      Assign "c0" (Op2 "+" (Var "c0") (Var "tl_8"));
      Assign "th_8" (Op2 "+" (Var "th_8") (Op2 "<" (Var "c0") (Var "tl_8")));
      Assign "c1" (Op2 "+" (Var "c1") (Var "th_8"));
      Assign "c2" (Op2 "+" (Var "c2") (Op2 "<" (Var "c1") (Var "th_8")));
      Call "_" "secp256k1_u128_mul" [Addr "t_9"; Load Sec (Op2 "[]" (Op1 ".d" (Var "a")) (Num 2)); Load Sec (Op2 "[]" (Op1 ".d" (Var "b")) (Num 1))];
      Call "t17" "secp256k1_u128_hi_u64" [Addr "t_9"];
      Assign "th_9" (Var "t17");
      Call "t18" "secp256k1_u128_to_u64" [Addr "t_9"];
      Assign "tl_9" (Var "t18");
      Assign "c0" (Op2 "+" (Var "c0") (Var "tl_9"));
      Assign "th_9" (Op2 "+" (Var "th_9") (Op2 "<" (Var "c0") (Var "tl_9")));
      Assign "c1" (Op2 "+" (Var "c1") (Var "th_9"));
      Assign "c2" (Op2 "+" (Var "c2") (Op2 "<" (Var "c1") (Var "th_9")));
      Call "_" "secp256k1_u128_mul" [Addr "t_10"; Load Sec (Op2 "[]" (Op1 ".d" (Var "a")) (Num 3)); Load Sec (Op2 "[]" (Op1 ".d" (Var "b")) (Num 0))];
      Call "t19" "secp256k1_u128_hi_u64" [Addr "t_10"];
      Assign "th_10" (Var "t19");
      Call "t20" "secp256k1_u128_to_u64" [Addr "t_10"];
      Assign "tl_10" (Var "t20");
      Assign "c0" (Op2 "+" (Var "c0") (Var "tl_10"));
      Assign "th_10" (Op2 "+" (Var "th_10") (Op2 "<" (Var "c0") (Var "tl_10")));
      Assign "c1" (Op2 "+" (Var "c1") (Var "th_10"));
      Assign "c2" (Op2 "+" (Var "c2") (Op2 "<" (Var "c1") (Var "th_10")));
      Store Sec (Op2 "[]" (Var "l8") (Num 3)) (Var "c0");
      Assign "c0" (Var "c1");
      Assign "c1" (Var "c2");
      Assign "c2" (Num 0);
      Call "_" "secp256k1_u128_mul" [Addr "t_11"; Load Sec (Op2 "[]" (Op1 ".d" (Var "a")) (Num 1)); Load Sec (Op2 "[]" (Op1 ".d" (Var "b")) (Num 3))];
      Call "t21" "secp256k1_u128_hi_u64" [Addr "t_11"];
      Assign "th_11" (Var "t21");
      Call "t22" "secp256k1_u128_to_u64" [Addr "t_11"];
      Assign "tl_11" (Var "t22");
      Assign "c0" (Op2 "+" (Var "c0") (Var "tl_11"));
      Assign "th_11" (Op2 "+" (Var "th_11") (Op2 "<" (Var "c0") (Var "tl_11")));
      Assign "c1" (Op2 "+" (Var "c1") (Var "th_11"));
      Assign "c2" (Op2 "+" (Var "c2") (Op2 "<" (Var "c1") (Var "th_11")));
      Call "_" "secp256k1_u128_mul" [Addr "t_12"; Load Sec (Op2 "[]" (Op1 ".d" (Var "a")) (Num 2)); Load Sec (Op2 "[]" (Op1 ".d" (Var "b")) (Num 2))];
      Call "t23" "secp256k1_u128_hi_u64" [Addr "t_12"];
      Assign "th_12" (Var "t23");
      Call "t24" "secp256k1_u128_to_u64" [Addr "t_12"];
      Assign "tl_12" (Var "t24");
      Assign "c0" (Op2 "+" (Var "c0") (Var "tl_12"));
      Assign "th_12" (Op2 "+" (Var "th_12") (Op2 "<" (Var "c0") (Var "tl_12")));
      Assign "c1" (Op2 "+" (Var "c1") (Var "th_12"));
      Assign "c2" (Op2 "+" (Var "c2") (Op2 "<" (Var "c1") (Var "th_12")));
      Call "_" "secp256k1_u128_mul" [Addr "t_13"; Load Sec (Op2 "[]" (Op1 ".d" (Var "a")) (Num 3)); Load Sec (Op2 "[]" (Op1 ".d" (Var "b")) (Num 1))];
      Call "t25" "secp256k1_u128_hi_u64" [Addr "t_13"];
      Assign "th_13" (Var "t25");
      Call "t26" "secp256k1_u128_to_u64" [Addr "t_13"];
      Assign "tl_13" (Var "t26");
      Assign "c0" (Op2 "+" (Var "c0") (Var "tl_13"));
      Assign "th_13" (Op2 "+" (Var "th_13") (Op2 "<" (Var "c0") (Var "tl_13")));
      Assign "c1" (Op2 "+" (Var "c1") (Var "th_13"));
      Assign "c2" (Op2 "+" (Var "c2") (Op2 "<" (Var "c1") (Var "th_13")));
      Store Sec (Op2 "[]" (Var "l8") (Num 4)) (Var "c0");
      Assign "c0" (Var "c1");
      Assign "c1" (Var "c2");
      Assign "c2" (Num 0);
      Call "_" "secp256k1_u128_mul" [Addr "t_14"; Load Sec (Op2 "[]" (Op1 ".d" (Var "a")) (Num 2)); Load Sec (Op2 "[]" (Op1 ".d" (Var "b")) (Num 3))];
      Call "t27" "secp256k1_u128_hi_u64" [Addr "t_14"];
      Assign "th_14" (Var "t27");
      Call "t28" "secp256k1_u128_to_u64" [Addr "t_14"];
      Assign "tl_14" (Var "t28");
      Assign "c0" (Op2 "+" (Var "c0") (Var "tl_14"));
      Assign "th_14" (Op2 "+" (Var "th_14") (Op2 "<" (Var "c0") (Var "tl_14")));
      Assign "c1" (Op2 "+" (Var "c1") (Var "th_14"));
      Assign "c2" (Op2 "+" (Var "c2") (Op2 "<" (Var "c1") (Var "th_14")));
      Call "_" "secp256k1_u128_mul" [Addr "t_15"; Load Sec (Op2 "[]" (Op1 ".d" (Var "a")) (Num 3)); Load Sec (Op2 "[]" (Op1 ".d" (Var "b")) (Num 2))];
      Call "t29" "secp256k1_u128_hi_u64" [Addr "t_15"];
      Assign "th_15" (Var "t29");
      Call "t30" "secp256k1_u128_to_u64" [Addr "t_15"];
      Assign "tl_15" (Var "t30");
      Assign "c0" (Op2 "+" (Var "c0") (Var "tl_15"));
      Assign "th_15" (Op2 "+" (Var "th_15") (Op2 "<" (Var "c0") (Var "tl_15")));
      Assign "c1" (Op2 "+" (Var "c1") (Var "th_15"));
      Assign "c2" (Op2 "+" (Var "c2") (Op2 "<" (Var "c1") (Var "th_15")));
      Store Sec (Op2 "[]" (Var "l8") (Num 5)) (Var "c0");
      Assign "c0" (Var "c1");
      Assign "c1" (Var "c2");
      Assign "c2" (Num 0);
      Call "_" "secp256k1_u128_mul" [Addr "t_16"; Load Sec (Op2 "[]" (Op1 ".d" (Var "a")) (Num 3)); Load Sec (Op2 "[]" (Op1 ".d" (Var "b")) (Num 3))];
      Call "t31" "secp256k1_u128_hi_u64" [Addr "t_16"];
      Assign "th_16" (Var "t31");
      Call "t32" "secp256k1_u128_to_u64" [Addr "t_16"];
      Assign "tl_16" (Var "t32");
      Assign "c0" (Op2 "+" (Var "c0") (Var "tl_16"));
      Assign "th_16" (Op2 "+" (Var "th_16") (Op2 "<" (Var "c0") (Var "tl_16")));
      Assign "c1" (Op2 "+" (Var "c1") (Var "th_16"));
      Store Sec (Op2 "[]" (Var "l8") (Num 6)) (Var "c0");
      Assign "c0" (Var "c1");
      Assign "c1" (Num 0);
      Store Sec (Op2 "[]" (Var "l8") (Num 7)) (Var "c0")]).
(** src/scalar_4x64_impl.h:347-676 secp256k1_scalar_reduce_512 *)
Definition c64_scalar_reduce_512 : func := mkfunc "secp256k1_scalar_reduce_512" [("r", false); ("l", false)] false
  (seq [Assign "n0" (Load Sec (Op2 "[]" (Var "l") (Num 4)));
      Assign "n1" (Load Sec (Op2 "[]" (Var "l") (Num 5)));
      Assign "n2" (Load Sec (Op2 "[]" (Var "l") (Num 6)));
      Assign "n3" (Load Sec (Op2 "[]" (Var "l") (Num 7)));
      Assign "c0" (Load Sec (Op2 "[]" (Var "l") (Num 0)));
      Assign "c1" (Num 0);
      Assign "c2" (Num 0);
      Call "_" "secp256k1_u128_mul" [Addr "t"; Var "n0"; Op2 "+" (Op1 "~" (Op1 "(uint64_t)" (Num 13822214165235122497))) (Num 1)];
      Call "t1" "secp256k1_u128_hi_u64" [Addr "t"];
      Assign "th" (Var "t1");
      Call "t2" "secp256k1_u128_to_u64" [Addr "t"];
      Assign "tl" (Var "t2");
      Assign "c0" (Op2 "+" (Var "c0") (Var "tl"));
      Assign "th" (Op2 "+" (Var "th") (Op2 "<" (Var "c0") (Var "tl")));
      Assign "c1" (Op2 "+" (Var "c1") (Var "th"));
      Assign "m0" (Var "c0");
      Assign "c0" (Var "c1");
      Assign "c1" (Num 0);
      Assign "c0" (Op2 "+" (Var "c0") (Load Sec (Op2 "[]" (Var "l") (Num 1))));
      Assign "c1" (Op2 "+" (Var "c1") (Op2 "<" (Var "c0") (Load Sec (Op2 "[]" (Var "l") (Num 1)))));
      Call "_" "secp256k1_u128_mul" [Addr "t_2"; Var "n1"; Op2 "+" (Op1 "~" (Op1 "(uint64_t)" (Num 13822214165235122497))) (Num 1)];
      Call "t3" "secp256k1_u128_hi_u64" [Addr "t_2"];
      Assign "th_2" (Var "t3");
      Call "t4" "secp256k1_u128_to_u64" [Addr "t_2"];
      Assign "tl_2" (Var "t4");
      Assign "c0" (Op2 "+" (Var "c0") (Var "tl_2"));
      Assign "th_2" (Op2 "+" (Var "th_2") (Op2 "<" (Var "c0") (Var "tl_2")));
      Assign "c1" (Op2 "+" (Var "c1") (Var "th_2"));
      Assign "c2" (Op2 "+" (Var "c2") (Op2 "<" (Var "c1") (Var "th_2")));
      Call "_" "secp256k1_u128_mul" [Addr "t_3"; Var "n0"; Op1 "~" (Op1 "(uint64_t)" (Num 13451932020343611451))];
      Call "t5" "secp256k1_u128_hi_u64" [Addr "t_3"];
      Assign "th_3" (Var "t5");
      Call "t6" "secp256k1_u128_to_u64" [Addr "t_3"];
      Assign "tl_3" (Var "t6");
      Assign "c0" (Op2 "+" (Var "c0") (Var "tl_3"));
      Assign "th_3" (Op2 "+" (Var "th_3") (Op2 "<" (Var "c0") (Var "tl_3")));
      Assign "c1" (Op2 "+" (Var "c1") (Var "th_3"));
      Assign "c2" (Op2 "+" (Var "c2") (Op2 "<" (Var "c1") (Var "th_3")));
      Assign "m1" (Var "c0");
      Assign "c0" (Var "c1");
      Assign "c1" (Var "c2");
      Assign "c2" (Num 0);
      Assign "c0" (Op2 "+" (Var "c0") (Load Sec (Op2 "[]" (Var "l") (Num 2))));
      Assign "over" (Op2 "<" (Var "c0") (Load Sec (Op2 "[]" (Var "l") (Num 2))));
      Assign "c1" (Op2 "+" (Var "c1") (Var "over"));
      Assign "c2" (Op2 "+" (Var "c2") (Op2 "<" (Var "c1") (Var "over")));
      Call "_" "secp256k1_u128_mul" [Addr "t_4"; Var "n2"; Op2 "+" (Op1 "~" (Op1 "(uint64_t)" (Num 13822214165235122497))) (Num 1)];
      Call "t7" "secp256k1_u128_hi_u64" [Addr "t_4"];
      Assign "th_4" (Var "t7");
      Call "t8" "secp256k1_u128_to_u64" [Addr "t_4"];
      Assign "tl_4" (Var "t8");
      Assign "c0" (Op2 "+" (Var "c0") (Var "tl_4"));
      Assign "th_4" (Op2 "+" (Var "th_4") (Op2 "<" (Var "c0") (Var "tl_4")));
      Assign "c1" (Op2 "+" (Var "c1") (Var "th_4"));
      Assign "c2" (Op2 "+" (Var "c2") (Op2 "<" (Var "c1") (Var "th_4")));
      Call "_" "secp256k1_u128_mul" [Addr "t_5"; Var "n1"; Op1 "~" (Op1 "(uint64_t)" (Num 13451932020343611451))];
      Call "t9" "secp256k1_u128_hi_u64" [Addr "t_5"];
      Assign "th_5" (Var "t9");
      Call "t10" "secp256k1_u128_to_u64" [Addr "t_5"];
      Assign "tl_5" (Var "t10");
      Assign "c0" (Op2 "+" (Var "c0") (Var "tl_5"));
      Assign "th_5" (Op2 "+" (Var "th_5") (Op2 "<" (Var "c0") (Var "tl_5")));
      Assign "c1" (Op2 "+" (Var "c1") (Var "th_5"));
      Assign "c2" (Op2 "+" (Var "c2") (Op2 "<" (Var "c1") (Var "th_5")));
      Assign "c0" (Op2 "+" (Var "c0") (Var "n0"));
      Assign "over_2" (Op2 "<" (Var "c0") (Var "n0"));
      Assign "c1" (Op2 "+" (Var "c1") (Var "over_2"));
      Assign "c2" (Op2 "+" (Var "c2") (Op2 "<" (Var "c1") (Var "over_2")));
      Assign "m2" (Var "c0");
      Assign "c0" (Var "c1");
      Assign "c1" (Var "c2");
      Assign "c2" (Num 0);
      Assign "c0" (Op2 "+" (Var "c0") (Load Sec (Op2 "[]" (Var "l") (Num 3))));
      Assign "over_3" (Op2 "<" (Var "c0") (Load Sec (Op2 "[]" (Var "l") (Num 3))));
      Assign "c1" (Op2 "+" (Var "c1") (Var "over_3"));
      Assign "c2" (Op2 "+" (Var "c2") (Op2 "<" (Var "c1") (Var "over_3")));
      Call "_" "secp256k1_u128_mul" [Addr "t_6"; Var "n3"; Op2 "+" (Op1 "~" (Op1 "(uint64_t)" (Num 13822214165235122497))) (Num 1)];
      Call "t11" "secp256k1_u128_hi_u64" [Addr "t_6"];
      Assign "th_6" (Var "t11");
      Call "t12" "secp256k1_u128_to_u64" [Addr "t_6"];
      Assign "tl_6" (Var "t12");
      Assign "c0" (Op2 "+" (Var "c0") (Var "tl_6"));
      Assign "th_6" (Op2 "+" (Var "th_6") (Op2 "<" (Var "c0") (Var "tl_6")));
      Assign "c1" (Op2 "+" (Var "c1") (Var "th_6"));
      Assign "c2" (Op2 "+" (Var "c2") (Op2 "<" (Var "c1") (Var "th_6")));
      Call "_" "secp256k1_u128_mul" [Addr "t_7"; Var "n2"; Op1 "~" (Op1 "(uint64_t)" (Num 13451932020343611451))];
      Call "t13" "secp256k1_u128_hi_u64" [Addr "t_7"];
      Assign "th_7" (Var "t13");
      Call "t14" "secp256k1_u128_to_u64" [Addr "t_7"];
      Assign "tl_7" (Var "t14");
      Assign "c0" (Op2 "+" (Var "c0") (Var "tl_7"));
      Assign "th_7" (Op2 "+" (Var "th_7") (Op2 "<" (Var "c0") (Var "tl_7")));
      Assign "c1" (Op2 "+" (Var "c1") (Var "th_7"));
      Assign "c2" (Op2 "+" (Var "c2") (Op2 "<" (Var "c1") (Var "th_7")));
      Assign "c0" (Op2 "+" (Var "c0") (Var "n1"));
      Assign "over_4" (Op2 "<" (Var "c0") (Var "n1"));
      Assign "c1" (Op2 "+" (Var "c1") (Var "over_4"));
      Assign "c2" (Op2 "+" (Var "c2") (Op2 "<" (Var "c1") (Var "over_4")));
      Assign "m3" (Var "c0");
      Assign "c0" (Var "c1");
      Assign "c1" (Var "c2");
      Assign "c2" (Num 0);
      Call "_" "secp256k1_u128_mul" [Addr "t_8"; Var "n3"; Op1 "~" (Op1 "(uint64_t)" (Num 13451932020343611451))];
      Call "t15" "secp256k1_u128_hi_u64" [Addr "t_8"];
      Assign "th_8" (Var "t15");
      Call "t16" "secp256k1_u128_to_u64" [Addr "t_8"];
      Assign "tl_8" (Var "t16");
      Assign "c0" (Op2 "+" (Var "c0") (Var "tl_8"));
      Assign "th_8" (Op2 "+" (Var "th_8") (Op2 "<" (Var "c0") (Var "tl_8")));
      Assign "c1" (Op2 "+" (Var "c1") (Var "th_8"));
      Assign "c2" (Op2 "+" (Var "c2") (Op2 "<" (Var "c1") (Var "th_8")));
      Assign "c0" (Op2 "+" (Var "c0") (Var "n2"));
      Assign "over_5" (Op2 "<" (Var "c0") (Var "n2"));
      Assign "c1" (Op2 "+" (Var "c1") (Var "over_5"));
      Assign "c2" (Op2 "+" (Var "c2") (Op2 "<" (Var "c1") (Var "over_5")));
      Assign "m4" (Var "c0");
      Assign "c0" (Var "c1");
      Assign "c1" (Var "c2");
      Assign "c2" (Num 0);
      Assign "c0" (Op2 "+" (Var "c0") (Var "n3"));
      Assign "c1" (Op2 "+" (Var "c1") (Op2 "<" (Var "c0") (Var "n3")));
      Assign "m5" (Var "c0");
      Assign "c0" (Var "c1");
      Assign "c1" (Num 0);
      Assign "m6" (Var "c0");
      Assign "c0" (Var "m0");
      Assign "c1" (Num 0);
      Assign "c2" (Num 0);
      Call "_" "secp256k1_u128_mul" [Addr "t_9"; Var "m4"; Op2 "+" (Op1 "~" (Op1 "(uint64_t)" (Num 13822214165235122497))) (Num 1)];
      Call "t17" "secp256k1_u128_hi_u64" [Addr "t_9"];
      Assign "th_9" (Var "t17");
      Call "t18" "secp256k1_u128_to_u64" [Addr "t_9"];
      Assign "tl_9" (Var "t18");
      Assign "c0" (Op2 "+" (Var "c0") (Var "tl_9"));
      Assign "th_9" (Op2 "+" (Var "th_9") (Op2 "<" (Var "c0") (Var "tl_9")));
      Assign "c1" (Op2 "+" (Var "c1") (Var "th_9"));
      Assign "p0" (Var "c0");
      Assign "c0" (Var "c1");
      Assign "c1" (Num 0);
      Assign "c0" (Op2 "+" (Var "c0") (Var "m1"));
      Assign "c1" (Op2 "+" (Var "c1") (Op2 "<" (Var "c0") (Var "m1")));
      Call "_" "secp256k1_u128_mul" [Addr "t_10"; Var "m5"; Op2 "+" (Op1 "~" (Op1 "(uint64_t)" (Num 13822214165235122497))) (Num 1)];
      Call "t19" "secp256k1_u128_hi_u64" [Addr "t_10"];
      Assign "th_10" (Var "t19");
      Call "t20" "secp256k1_u128_to_u64" [Addr "t_10"];
      Assign "tl_10" (Var "t20");
      Assign "c0" (Op2 "+" (Var "c0") (Var "tl_10"));
      Assign "th_10" (Op2 "+" (Var "th_10") (Op2 "<" (Var "c0") (Var "tl_10")));
      Assign "c1" (Op2 "+" (Var "c1") (Var "th_10"));
      Assign "c2" (Op2 "+" (Var "c2") (Op2 "<" (Var "c1") (Var "th_10")));
      Call "_" "secp256k1_u128_mul" [Addr "t_11"; Var "m4"; Op1 "~" (Op1 "(uint64_t)" (Num 13451932020343611451))];
      Call "t21" "secp256k1_u128_hi_u64" [Addr "t_11"];
      Assign "th_11" (Var "t21");
      Call "t22" "secp256k1_u128_to_u64" [Addr "t_11"];
      Assign "tl_11" (Var "t22");
      Assign "c0" (Op2 "+" (Var "c0") (Var "tl_11"));
      Assign "th_11" (Op2 "+" (Var "th_11") (Op2 "<" (Var "c0") (Var "tl_11")));
      Assign "c1" (Op2 "+" (Var "c1") (Var "th_11"));
      Assign "c2" (Op2 "+" (Var "c2") (Op2 "<" (Var "c1") (Var "th_11")));
      Assign "p1" (Var "c0");
      Assign "c0" (Var "c1");
      Assign "c1" (Var "c2");
      Assign "c2" (Num 0);
      Assign "c0" (Op2 "+" (Var "c0") (Var "m2"));
      Assign "over_6" (Op2 "<" (Var "c0") (Var "m2"));
      Assign "c1" (Op2 "+" (Var "c1") (Var "over_6"));
      Assign "c2" (Op2 "+" (Var "c2") (Op2 "<" (Var "c1") (Var "over_6")));
      Call "_" "secp256k1_u128_mul" [Addr "t_12"; Var "m6"; Op2 "+" (Op1 "~" (Op1 "(uint64_t)" (Num 13822214165235122497))) (Num 1)];
      Call "t23" "secp256k1_u128_hi_u64" [Addr "t_12"];
      Assign "th_12" (Var "t23");
      Call "t24" "secp256k1_u128_to_u64" [Addr "t_12"];
      Assign "tl_12" (Var "t24");
      Assign "c0" (Op2 "+" (Var "c0") (Var "tl_12"));
      Assign "th_12" (Op2 "+" (Var "th_12") (Op2 "<" (Var "c0") (Var "tl_12")));
      Assign "c1" (Op2 "+" (Var "c1") (Var "th_12"));
      Assign "c2" (Op2 "+" (Var "c2") (Op2 "<" (Var "c1") (Var "th_12")));
      Call "_" "secp256k1_u128_mul" [Addr "t_13"; Var "m5"; Op1 "~" (Op1 "(uint64_t)" (Num 13451932020343611451))];
      Call "t25" "secp256k1_u128_hi_u64" [Addr "t_13"];
      Assign "th_13" (Var "t25");
      Call "t26" "secp256k1_u128_to_u64" [Addr "t_13"];
      Assign "tl_13" (Var "t26");
      Assign "c0" (Op2 "+" (Var "c0") (Var "tl_13"));
      Assign "th_13" (Op2 "+" (Var "th_13") (Op2 "<" (Var "c0") (Var "tl_13")));
      Assign "c1" (Op2 "+" (Var "c1") (Var "th_13"));
      Assign "c2" (Op2 "+" (Var "c2") (Op2 "<" (Var "c1") (Var "th_13")));
      Assign "c0" (Op2 "+" (Var "c0") (Var "m4"));
      Assign "over_7" (Op2 "<" (Var "c0") (Var "m4"));
      Assign "c1" (Op2 "+" (Var "c1") (Var "over_7"));
      Assign "c2" (Op2 "+" (Var "c2") (Op2 "<" (Var "c1") (Var "over_7")));
      Assign "p2" (Var "c0");
      Assign "c0" (Var "c1");
      Assign "c1" (Var "c2");
      Assign "c2" (Num 0);
      Assign "c0" (Op2 "+" (Var "c0") (Var "m3"));
      Assign "c1" (Op2 "+" (Var "c1") (Op2 "<" (Var "c0") (Var "m3")));
      Call "_" "secp256k1_u128_mul" [Addr "t_14"; Var "m6"; Op1 "~" (Op1 "(uint64_t)" (Num 13451932020343611451))];
      Call "t27" "secp256k1_u128_hi_u64" [Addr "t_14"];
      Assign "th_14" (Var "t27");
      Call "t28" "secp256k1_u128_to_u64" [Addr "t_14"];
      Assign "tl_14" (Var "t28");
      Assign "c0" (Op2 "+" (Var "c0") (Var "tl_14"));
      Assign "th_14" (Op2 "+" (Var "th_14") (Op2 "<" (Var "c0") (Var "tl_14")));
      Assign "c1" (Op2 "+" (Var "c1") (Var "th_14"));
      Assign "c0" (Op2 "+" (Var "c0") (Var "m5"));
      Assign "c1" (Op2 "+" (Var "c1") (Op2 "<" (Var "c0") (Var "m5")));
      Assign "p3" (Var "c0");
      Assign "c0" (Var "c1");
      Assign "c1" (Num 0);
      Assign "p4" (Op2 "+" (Var "c0") (Var "m6"));
      Call "_" "secp256k1_u128_from_u64" [Addr "c128"; Var "p0"];
      Call "_" "secp256k1_u128_accum_mul" [Addr "c128"; Op2 "+" (Op1 "~" (Op1 "(uint64_t)" (Num 13822214165235122497))) (Num 1); Var "p4"];
      Call "t29" "secp256k1_u128_to_u64" [Addr "c128"];
      Store Sec (Op2 "[]" (Op1 ".d" (Var "r")) (Num 0)) (Var "t29");
      Call "_" "secp256k1_u128_rshift" [Addr "c128"; Num 64];
      Call "_" "secp256k1_u128_accum_u64" [Addr "c128"; Var "p1"];
      Call "_" "secp256k1_u128_accum_mul" [Addr "c128"; Op1 "~" (Op1 "(uint64_t)" (Num 13451932020343611451)); Var "p4"];
      Call "t30" "secp256k1_u128_to_u64" [Addr "c128"];
      Store Sec (Op2 "[]" (Op1 ".d" (Var "r")) (Num 1)) (Var "t30");
      Call "_" "secp256k1_u128_rshift" [Addr "c128"; Num 64];
      Call "_" "secp256k1_u128_accum_u64" [Addr "c128"; Var "p2"];
      Call "_" "secp256k1_u128_accum_u64" [Addr "c128"; Var "p4"];
      Call "t31" "secp256k1_u128_to_u64" [Addr "c128"];
      Store Sec (Op2 "[]" (Op1 ".d" (Var "r")) (Num 2)) (Var "t31");
      Call "_" "secp256k1_u128_rshift" [Addr "c128"; Num 64];
      Call "_" "secp256k1_u128_accum_u64" [Addr "c128"; Var "p3"];
      Call "t32" "secp256k1_u128_to_u64" [Addr "c128"];
      Store Sec (Op2 "[]" (Op1 ".d" (Var "r")) (Num 3)) (Var "t32");
      Call "t33" "secp256k1_u128_hi_u64" [Addr "c128"];
      Assign "c" (Var "t33");
      Call "t34" "secp256k1_scalar_check_overflow" [Var "r"];
      Call "_" "secp256k1_scalar_reduce" [Var "r"; Op2 "+" (Var "c") (Var "t34")]]).
(** src/scalar_4x64_impl.h:855-864 secp256k1_scalar_mul *)
Definition c64_scalar_mul : func := mkfunc "secp256k1_scalar_mul" [("r", false); ("a", false); ("b", false)] false
  (seq [Call "_" "secp256k1_scalar_mul_512" [Addr "l"; Var "a"; Var "b"];
      Call "_" "secp256k1_scalar_reduce_512" [Var "r"; Addr "l"]]).
(** src/eckey_impl.h:75-81 secp256k1_eckey_privkey_tweak_mul *)
Definition c64_eckey_privkey_tweak_mul : func := mkfunc "secp256k1_eckey_privkey_tweak_mul" [("key", false); ("tweak", false)] true
  (seq [Call "t1" "secp256k1_scalar_is_zero" [Var "tweak"];
      Assign "ret" (Op1 "!" (Var "t1"));
      Call "_" "secp256k1_scalar_mul" [Var "key"; Var "key"; Var "tweak"];
      Return (Var "ret")]).
(** src/secp256k1.c:704-722 secp256k1_ec_seckey_tweak_mul *)
Definition c64_ec_seckey_tweak_mul : func := mkfunc "secp256k1_ec_seckey_tweak_mul" [("ctx", false); ("seckey", false); ("tweak32", false)] true
  (seq [Assign "ret" (Num 0);
      Store Sec (Addr "overflow") (Num 0);
      If (Op1 "!" (Op2 "!=" (Var "seckey") (Num 0))) (seq [Prim "callback" [];
      Return (Num 0)]) (Skip);
      If (Op1 "!" (Op2 "!=" (Var "tweak32") (Num 0))) (seq [Prim "callback" [];
      Return (Num 0)]) (Skip);
      Call "_" "secp256k1_scalar_set_b32" [Addr "factor"; Var "tweak32"; Addr "overflow"];
      Call "t1" "secp256k1_scalar_set_b32_seckey" [Addr "sec"; Var "seckey"];
      Assign "ret" (Var "t1");
      Call "t2" "secp256k1_eckey_privkey_tweak_mul" [Addr "sec"; Addr "factor"];
      Assign "ret" (Op2 "&" (Var "ret") (Op2 "&" (Op1 "!" (Load Sec (Addr "overflow"))) (Var "t2")));
      Call "_" "secp256k1_scalar_cmov@SP" [Addr "sec"; Op0 "secp256k1_scalar_zero"; Op1 "!" (Var "ret")];
      Call "_" "secp256k1_scalar_get_b32" [Var "seckey"; Addr "sec"];
      Call "_" "secp256k1_scalar_clear" [Addr "sec"];
      Call "_" "secp256k1_scalar_clear" [Addr "factor"];
      Return (Var "ret")]).
(** src/secp256k1.c:82-84 secp256k1_context_is_proper *)
Definition c64_context_is_proper : func := mkfunc "secp256k1_context_is_proper" [("ctx", false)] false
  (seq [Call "t1" "secp256k1_ecmult_gen_context_is_built" [Op1 ".ecmult_gen_ctx" (Var "ctx")];
      Return (Var "t1")]).
(** src/scalar_4x64_impl.h:194-233 secp256k1_scalar_half@SP *)
Definition c64_scalar_half__SP : func := mkfunc "secp256k1_scalar_half@SP" [("r", false); ("a", false)] false
  (seq [Assign "mask" (Op1 "-" (Op1 "(uint64_t)" (Op2 "&" (Load Pub (Op2 "[]" (Op1 ".d" (Var "a")) (Num 0))) (Num 1))));
      Call "_" "secp256k1_u128_from_u64" [Addr "t"; Op2 "|" (Op2 ">>" (Load Pub (Op2 "[]" (Op1 ".d" (Var "a")) (Num 0))) (Num 1)) (Op2 "<<" (Load Pub (Op2 "[]" (Op1 ".d" (Var "a")) (Num 1))) (Num 63))];
      Call "_" "secp256k1_u128_accum_u64" [Addr "t"; Op2 "&" (Op2 "+" (Op1 "(uint64_t)" (Num 16134479119472337056)) (Num 1)) (Var "mask")];
      Call "t1" "secp256k1_u128_to_u64" [Addr "t"];
      Store Sec (Op2 "[]" (Op1 ".d" (Var "r")) (Num 0)) (Var "t1");
      Call "_" "secp256k1_u128_rshift" [Addr "t"; Num 64];
      Call "_" "secp256k1_u128_accum_u64" [Addr "t"; Op2 "|" (Op2 ">>" (Load Pub (Op2 "[]" (Op1 ".d" (Var "a")) (Num 1))) (Num 1)) (Op2 "<<" (Load Pub (Op2 "[]" (Op1 ".d" (Var "a")) (Num 2))) (Num 63))];
      Call "_" "secp256k1_u128_accum_u64" [Addr "t"; Op2 "&" (Op1 "(uint64_t)" (Num 6725966010171805725)) (Var "mask")];
      Call "t2" "secp256k1_u128_to_u64" [Addr "t"];
      Store Sec (Op2 "[]" (Op1 ".d" (Var "r")) (Num 1)) (Var "t2");
      Call "_" "secp256k1_u128_rshift" [Addr "t"; Num 64];
      Call "_" "secp256k1_u128_accum_u64" [Addr "t"; Op2 "|" (Op2 ">>" (Load Pub (Op2 "[]" (Op1 ".d" (Var "a")) (Num 2))) (Num 1)) (Op2 "<<" (Load Pub (Op2 "[]" (Op1 ".d" (Var "a")) (Num 3))) (Num 63))];
      Call "_" "secp256k1_u128_accum_u64" [Addr "t"; Op2 "&" (Op1 "(uint64_t)" (Num 18446744073709551615)) (Var "mask")];
      Call "t3" "secp256k1_u128_to_u64" [Addr "t"];
      Store Sec (Op2 "[]" (Op1 ".d" (Var "r")) (Num 2)) (Var "t3");
      Call "_" "secp256k1_u128_rshift" [Addr "t"; Num 64];
      Call "t4" "secp256k1_u128_to_u64" [Addr "t"];
      Store Sec (Op2 "[]" (Op1 ".d" (Var "r")) (Num 3)) (Op2 "+" (Op2 "+" (Var "t4") (Op2 ">>" (Load Pub (Op2 "[]" (Op1 ".d" (Var "a")) (Num 3))) (Num 1))) (Op2 "&" (Op1 "(uint64_t)" (Num 9223372036854775807)) (Var "mask")))]).
(** src/ecmult_gen_impl.h:36-52 secp256k1_ecmult_gen_scalar_diff *)
Definition c64_ecmult_gen_scalar_diff : func := mkfunc "secp256k1_ecmult_gen_scalar_diff" [("diff", false)] false
  (seq [Call "_" "secp256k1_scalar_half@SP" [Addr "neghalf"; Op0 "secp256k1_scalar_one"];
      Call "_" "secp256k1_scalar_negate" [Addr "neghalf"; Addr "neghalf"];
      Prim "copy" [Var "diff"; Op0 "secp256k1_scalar_one"];
      Assign "i" (Num 0);
      Loop (If (Op2 "<" (Var "i") (Op2 "-" (Op2 "*" (Op2 "*" (Num 11) (Num 6)) (Op2 "+" (Num 1) (Op2 "/" (Op2 "-" (Num 256) (Num 1)) (Op2 "*" (Num 11) (Num 6))))) (Num 1))) (seq [Call "_" "secp256k1_scalar_add" [Var "diff"; Var "diff"; Var "diff"];
      Assign "i" (Op2 "+" (Var "i") (Num 1))]) (Break));
      Call "_" "secp256k1_scalar_add" [Var "diff"; Var "diff"; Addr "neghalf"]]).
(** src/field_5x52_impl.h:80-97 secp256k1_fe_impl_normalize_weak *)
Definition c64_fe_impl_normalize_weak : func := mkfunc "secp256k1_fe_impl_normalize_weak" [("r", false)] false
  (seq [Assign "t0" (Load Sec (Op2 "[]" (Op1 ".n" (Var "r")) (Num 0)));
      Assign "t1" (Load Sec (Op2 "[]" (Op1 ".n" (Var "r")) (Num 1)));
      Assign "t2" (Load Sec (Op2 "[]" (Op1 ".n" (Var "r")) (Num 2)));
      Assign "t3" (Load Sec (Op2 "[]" (Op1 ".n" (Var "r")) (Num 3)));
      Assign "t4" (Load Sec (Op2 "[]" (Op1 ".n" (Var "r")) (Num 4)));
      Assign "x" (Op2 ">>" (Var "t4") (Num 48));
      Assign "t4" (Op2 "&" (Var "t4") (Num 281474976710655));
      Assign "t0" (Op2 "+" (Var "t0") (Op2 "*" (Var "x") (Num 4294968273)));
      Assign "t1" (Op2 "+" (Var "t1") (Op2 ">>" (Var "t0") (Num 52)));
      Assign "t0" (Op2 "&" (Var "t0") (Num 4503599627370495));
      Assign "t2" (Op2 "+" (Var "t2") (Op2 ">>" (Var "t1") (Num 52)));
      Assign "t1" (Op2 "&" (Var "t1") (Num 4503599627370495));
      Assign "t3" (Op2 "+" (Var "t3") (Op2 ">>" (Var "t2") (Num 52)));
      Assign "t2" (Op2 "&" (Var "t2") (Num 4503599627370495));
      Assign "t4" (Op2 "+" (Var "t4") (Op2 ">>" (Var "t3") (Num 52)));
      Assign "t3" (Op2 "&" (Var "t3") (Num 4503599627370495));
      Store Sec (Op2 "[]" (Op1 ".n" (Var "r")) (Num 0)) (Var "t0");
      Store Sec (Op2 "[]" (Op1 ".n" (Var "r")) (Num 1)) (Var "t1");
      Store Sec (Op2 "[]" (Op1 ".n" (Var "r")) (Num 2)) (Var "t2");
      Store Sec (Op2 "[]" (Op1 ".n" (Var "r")) (Num 3)) (Var "t3");
      Store Sec (Op2 "[]" (Op1 ".n" (Var "r")) (Num 4)) (Var "t4")]).
(** src/group_impl.h:149-157 secp256k1_ge_neg@SP *)
Definition c64_ge_neg__SP : func := mkfunc "secp256k1_ge_neg@SP" [("r", false); ("a", false)] false
  (seq [Prim "copy" [Var "r"; Var "a"];
      Call "_" "secp256k1_fe_impl_normalize_weak" [Op1 ".y" (Var "r")];
      Call "_" "secp256k1_fe_impl_negate_unchecked" [Op1 ".y" (Var "r"); Op1 ".y" (Var "r"); Num 1]]).
(** src/scalar_4x64_impl.h:94-118 secp256k1_scalar_add@SPS *)
Definition c64_scalar_add__SPS : func := mkfunc "secp256k1_scalar_add@SPS" [("r", false); ("a", false); ("b", false)] true
  (seq [Call "_" "secp256k1_u128_from_u64" [Addr "t"; Load Pub (Op2 "[]" (Op1 ".d" (Var "a")) (Num 0))];
      Call "_" "secp256k1_u128_accum_u64" [Addr "t"; Load Sec (Op2 "[]" (Op1 ".d" (Var "b")) (Num 0))];
      Call "t1" "secp256k1_u128_to_u64" [Addr "t"];
      Store Sec (Op2 "[]" (Op1 ".d" (Var "r")) (Num 0)) (Var "t1");
      Call "_" "secp256k1_u128_rshift" [Addr "t"; Num 64];
      Call "_" "secp256k1_u128_accum_u64" [Addr "t"; Load Pub (Op2 "[]" (Op1 ".d" (Var "a")) (Num 1))];
      Call "_" "secp256k1_u128_accum_u64" [Addr "t"; Load Sec (Op2 "[]" (Op1 ".d" (Var "b")) (Num 1))];
      Call "t2" "secp256k1_u128_to_u64" [Addr "t"];
      Store Sec (Op2 "[]" (Op1 ".d" (Var "r")) (Num 1)) (Var "t2");
      Call "_" "secp256k1_u128_rshift" [Addr "t"; Num 64];
      Call "_" "secp256k1_u128_accum_u64" [Addr "t"; Load Pub (Op2 "[]" (Op1 ".d" (Var "a")) (Num 2))];
      Call "_" "secp256k1_u128_accum_u64" [Addr "t"; Load Sec (Op2 "[]" (Op1 ".d" (Var "b")) (Num 2))];
      Call "t3" "secp256k1_u128_to_u64" [Addr "t"];
      Store Sec (Op2 "[]" (Op1 ".d" (Var "r")) (Num 2)) (Var "t3");
      Call "_" "secp256k1_u128_rshift" [Addr "t"; Num 64];
      Call "_" "secp256k1_u128_accum_u64" [Addr "t"; Load Pub (Op2 "[]" (Op1 ".d" (Var "a")) (Num 3))];
      Call "_" "secp256k1_u128_accum_u64" [Addr "t"; Load Sec (Op2 "[]" (Op1 ".d" (Var "b")) (Num 3))];
      Call "t4" "secp256k1_u128_to_u64" [Addr "t"];
      Store Sec (Op2 "[]" (Op1 ".d" (Var "r")) (Num 3)) (Var "t4");
      Call "_" "secp256k1_u128_rshift" [Addr "t"; Num 64];
      Call "t5" "secp256k1_u128_to_u64" [Addr "t"];
      Call "t6" "secp256k1_scalar_check_overflow" [Var "r"];
      Assign "overflow" (Op2 "+" (Var "t5") (Var "t6"));
      Call "_" "secp256k1_scalar_reduce" [Var "r"; Var "overflow"];
      Return (Var "overflow")]).
(** src/hash_impl.h:31-41 secp256k1_sha256_initialize *)
Definition c64_sha256_initialize : func := mkfunc "secp256k1_sha256_initialize" [("hash", false)] false
  (seq [Store Sec (Op2 "[]" (Op1 ".s" (Var "hash")) (Num 0)) (Num 1779033703);
      Store Sec (Op2 "[]" (Op1 ".s" (Var "hash")) (Num 1)) (Num 3144134277);
      Store Sec (Op2 "[]" (Op1 ".s" (Var "hash")) (Num 2)) (Num 1013904242);
      Store Sec (Op2 "[]" (Op1 ".s" (Var "hash")) (Num 3)) (Num 2773480762);
      Store Sec (Op2 "[]" (Op1 ".s" (Var "hash")) (Num 4)) (Num 1359893119);
      Store Sec (Op2 "[]" (Op1 ".s" (Var "hash")) (Num 5)) (Num 2600822924);
      Store Sec (Op2 "[]" (Op1 ".s" (Var "hash")) (Num 6)) (Num 528734635);
      Store Sec (Op2 "[]" (Op1 ".s" (Var "hash")) (Num 7)) (Num 1541459225);
      Store Pub (Op1 ".bytes" (Var "hash")) (Num 0)]).
(** src/util.h:400-405 secp256k1_read_be32 *)
Definition c64_read_be32 : func := mkfunc "secp256k1_read_be32" [("p", false)] true
  (Return (Op2 "|" (Op2 "|" (Op2 "|" (Op2 "<<" (Op1 "(uint32_t)" (Load Sec (Op2 "[]" (Var "p") (Num 0)))) (Num 24)) (Op2 "<<" (Op1 "(uint32_t)" (Load Sec (Op2 "[]" (Var "p") (Num 1)))) (Num 16))) (Op2 "<<" (Op1 "(uint32_t)" (Load Sec (Op2 "[]" (Var "p") (Num 2)))) (Num 8))) (Op1 "(uint32_t)" (Load Sec (Op2 "[]" (Var "p") (Num 3)))))).
(** src/hash_impl.h:44-124 secp256k1_sha256_transform *)
Definition c64_sha256_transform : func := mkfunc "secp256k1_sha256_transform" [("s", false); ("buf", false)] false
  (seq [Assign "a" (Load Sec (Op2 "[]" (Var "s") (Num 0)));
      Assign "b" (Load Sec (Op2 "[]" (Var "s") (Num 1)));
      Assign "c" (Load Sec (Op2 "[]" (Var "s") (Num 2)));
      Assign "d" (Load Sec (Op2 "[]" (Var "s") (Num 3)));
      Assign "e" (Load Sec (Op2 "[]" (Var "s") (Num 4)));
      Assign "f" (Load Sec (Op2 "[]" (Var "s") (Num 5)));
      Assign "g" (Load Sec (Op2 "[]" (Var "s") (Num 6)));
      Assign "h" (Load Sec (Op2 "[]" (Var "s") (Num 7)));
      Call "t1" "secp256k1_read_be32" [Op2 "[]" (Var "buf") (Num 0)];
      Assign "w0" (Var "t1");
      Assign "t1" (Op2 "+" (Op2 "+" (Op2 "+" (Op2 "+" (Var "h") (Op2 "^" (Op2 "^" (Op2 "|" (Op2 ">>" (Var "e") (Num 6)) (Op2 "<<" (Var "e") (Num 26))) (Op2 "|" (Op2 ">>" (Var "e") (Num 11)) (Op2 "<<" (Var "e") (Num 21)))) (Op2 "|" (Op2 ">>" (Var "e") (Num 25)) (Op2 "<<" (Var "e") (Num 7))))) (Op2 "^" (Var "g") (Op2 "&" (Var "e") (Op2 "^" (Var "f") (Var "g"))))) (Num 1116352408)) (Var "w0"));
      Assign "t2" (Op2 "+" (Op2 "^" (Op2 "^" (Op2 "|" (Op2 ">>" (Var "a") (Num 2)) (Op2 "<<" (Var "a") (Num 30))) (Op2 "|" (Op2 ">>" (Var "a") (Num 13)) (Op2 "<<" (Var "a") (Num 19)))) (Op2 "|" (Op2 ">>" (Var "a") (Num 22)) (Op2 "<<" (Var "a") (Num 10)))) (Op2 "|" (Op2 "&" (Var "a") (Var "b")) (Op2 "&" (Var "c") (Op2 "|" (Var "a") (Var "b")))));
      Assign "d" (Op2 "+" (Var "d") (Var "t1"));
      Assign "h" (Op2 "+" (Var "t1") (Var "t2"));
      Call "t2" "secp256k1_read_be32" [Op2 "[]" (Var "buf") (Num 4)];
      Assign "w1" (Var "t2");
      Assign "t1_2" (Op2 "+" (Op2 "+" (Op2 "+" (Op2 "+" (Var "g") (Op2 "^" (Op2 "^" (Op2 "|" (Op2 ">>" (Var "d") (Num 6)) (Op2 "<<" (Var "d") (Num 26))) (Op2 "|" (Op2 ">>" (Var "d") (Num 11)) (Op2 "<<" (Var "d") (Num 21)))) (Op2 "|" (Op2 ">>" (Var "d") (Num 25)) (Op2 "<<" (Var "d") (Num 7))))) (Op2 "^" (Var "f") (Op2 "&" (Var "d") (Op2 "^" (Var "e") (Var "f"))))) (Num 1899447441)) (Var "w1"));
      Assign "t2_2" (Op2 "+" (Op2 "^" (Op2 "^" (Op2 "|" (Op2 ">>" (Var "h") (Num 2)) (Op2 "<<" (Var "h") (Num 30))) (Op2 "|" (Op2 ">>" (Var "h") (Num 13)) (Op2 "<<" (Var "h") (Num 19)))) (Op2 "|" (Op2 ">>" (Var "h") (Num 22)) (Op2 "<<" (Var "h") (Num 10)))) (Op2 "|" (Op2 "&" (Var "h") (Var "a")) (Op2 "&" (Var "b") (Op2 "|" (Var "h") (Var "a")))));
      Assign "c" (Op2 "+" (Var "c") (Var "t1_2"));
      Assign "g" (Op2 "+" (Var "t1_2") (Var "t2_2"));
      Call "t3" "secp256k1_read_be32" [Op2 "[]" (Var "buf") (Num 8)];
      Assign "w2" (Var "t3");
      Assign "t1_3" (Op2 "+" (Op2 "+" (Op2 "+" (Op2 "+" (Var "f") (Op2 "^" (Op2 "^" (Op2 "|" (Op2 ">>" (Var "c") (Num 6)) (Op2 "<<" (Var "c") (Num 26))) (Op2 "|" (Op2 ">>" (Var "c") (Num 11)) (Op2 "<<" (Var "c") (Num 21)))) (Op2 "|" (Op2 ">>" (Var "c") (Num 25)) (Op2 "<<" (Var "c") (Num 7))))) (Op2 "^" (Var "e") (Op2 "&" (Var "c") (Op2 "^" (Var "d") (Var "e"))))) (Num 3049323471)) (Var "w2"));
      Assign "t2_3" (Op2 "+" (Op2 "^" (Op2 "^" (Op2 "|" (Op2 ">>" (Var "g") (Num 2)) (Op2 "<<" (Var "g") (Num 30))) (Op2 "|" (Op2 ">>" (Var "g") (Num 13)) (Op2 "<<" (Var "g") (Num 19)))) (Op2 "|" (Op2 ">>" (Var "g") (Num 22)) (Op2 "<<" (Var "g") (Num 10)))) (Op2 "|" (Op2 "&" (Var "g") (Var "h")) (Op2 "&" (Var "a") (Op2 "|" (Var "g") (Var "h")))));
      Assign "b" (Op2 "+" (Var "b") (Var "t1_3"));
      Assign "f" (Op2 "+" (Var "t1_3") (Var "t2_3"));
      Call "t4" "secp256k1_read_be32" [Op2 "[]" (Var "buf") (Num 12)];
      Assign "w3" (Var "t4");
      Assign "t1_4" (Op2 "+" (Op2 "+" (Op2 "+" (Op2 "+" (Var "e") (Op2 "^" (Op2 "^" (Op2 "|" (Op2 ">>" (Var "b") (Num 6)) (Op2 "<<" (Var "b") (Num 26))) (Op2 "|" (Op2 ">>" (Var "b") (Num 11)) (Op2 "<<" (Var "b") (Num 21)))) (Op2 "|" (Op2 ">>" (Var "b") (Num 25)) (Op2 "<<" (Var "b") (Num 7))))) (Op2 "^" (Var "d") (Op2 "&" (Var "b") (Op2 "^" (Var "c") (Var "d"))))) (Num 3921009573)) (Var "w3"));
      Assign "t2_4" (Op2 "+" (Op2 "^" (Op2 "^" (Op2 "|" (Op2 ">>" (Var "f") (Num 2)) (Op2 "<<" (Var "f") (Num 30))) (Op2 "|" (Op2 ">>" (Var "f") (Num 13)) (Op2 "<<" (Var "f") (Num 19)))) (Op2 "|" (Op2 ">>" (Var "f") (Num 22)) (Op2 "<<" (Var "f") (Num 10)))) (Op2 "|" (Op2 "&" (Var "f") (Var "g")) (Op2 "&" (Var "h") (Op2 "|" (Var "f") (Var "g")))));
      Assign "a" (Op2 "+" (Var "a") (Var "t1_4"));
      Assign "e" (Op2 "+" (Var "t1_4") (Var "t2_4"));
      Call "t5" "secp256k1_read_be32" [Op2 "[]" (Var "buf") (Num 16)];
      Assign "w4" (Var "t5");
      Assign "t1_5" (Op2 "+" (Op2 "+" (Op2 "+" (Op2 "+" (Var "d") (Op2 "^" (Op2 "^" (Op2 "|" (Op2 ">>" (Var "a") (Num 6)) (Op2 "<<" (Var "a") (Num 26))) (Op2 "|" (Op2 ">>" (Var "a") (Num 11)) (Op2 "<<" (Var "a") (Num 21)))) (Op2 "|" (Op2 ">>" (Var "a") (Num 25)) (Op2 "<<" (Var "a") (Num 7))))) (Op2 "^" (Var "c") (Op2 "&" (Var "a") (Op2 "^" (Var "b") (Var "c"))))) (Num 961987163)) (Var "w4"));
      Assign "t2_5" (Op2 "+" (Op2 "^" (Op2 "^" (Op2 "|" (Op2 ">>" (Var "e") (Num 2)) (Op2 "<<" (Var "e") (Num 30))) (Op2 "|" (Op2 ">>" (Var "e") (Num 13)) (Op2 "<<" (Var "e") (Num 19)))) (Op2 "|" (Op2 ">>" (Var "e") (Num 22)) (Op2 "<<" (Var "e") (Num 10)))) (Op2 "|" (Op2 "&" (Var "e") (Var "f")) (Op2 "&" (Var "g") (Op2 "|" (Var "e") (Var "f")))));
      Assign "h" (Op2 "+" (Var "h") (Var "t1_5"));
      Assign "d" (Op2 "+" (Var "t1_5") (Var "t2_5"));
      Call "t6" "secp256k1_read_be32" [Op2 "[]" (Var "buf") (Num 20)];
      Assign "w5" (Var "t6");
      Assign "t1_6" (Op2 "+" (Op2 "+" (Op2 "+" (Op2 "+" (Var "c") (Op2 "^" (Op2 "^" (Op2 "|" (Op2 ">>" (Var "h") (Num 6)) (Op2 "<<" (Var "h") (Num 26))) (Op2 "|" (Op2 ">>" (Var "h") (Num 11)) (Op2 "<<" (Var "h") (Num 21)))) (Op2 "|" (Op2 ">>" (Var "h") (Num 25)) (Op2 "<<" (Var "h") (Num 7))))) (Op2 "^" (Var "b") (Op2 "&" (Var "h") (Op2 "^" (Var "a") (Var "b"))))) (Num 1508970993)) (Var "w5"));
      Assign "t2_6" (Op2 "+" (Op2 "^" (Op2 "^" (Op2 "|" (Op2 ">>" (Var "d") (Num 2)) (Op2 "<<" (Var "d") (Num 30))) (Op2 "|" (Op2 ">>" (Var "d") (Num 13)) (Op2 "<<" (Var "d") (Num 19)))) (Op2 "|" (Op2 ">>" (Var "d") (Num 22)) (Op2 "<<" (Var "d") (Num 10)))) (Op2 "|" (Op2 "&" (Var "d") (Var "e")) (Op2 "&" (Var "f") (Op2 "|" (Var "d") (Var "e")))));
      Assign "g" (Op2 "+" (Var "g") (Var "t1_6"));
      Assign "c" (Op2 "+" (Var "t1_6") (Var "t2_6"));
      Call "t7" "secp256k1_read_be32" [Op2 "[]" (Var "buf") (Num 24)];
      Assign "w6" (Var "t7");
      Assign "t1_7" (Op2 "+" (Op2 "+" (Op2 "+" (Op2 "+" (Var "b") (Op2 "^" (Op2 "^" (Op2 "|" (Op2 ">>" (Var "g") (Num 6)) (Op2 "<<" (Var "g") (Num 26))) (Op2 "|" (Op2 ">>" (Var "g") (Num 11)) (Op2 "<<" (Var "g") (Num 21)))) (Op2 "|" (Op2 ">>" (Var "g") (Num 25)) (Op2 "<<" (Var "g") (Num 7))))) (Op2 "^" (Var "a") (Op2 "&" (Var "g") (Op2 "^" (Var "h") (Var "a"))))) (Num 2453635748)) (Var "w6"));
      Assign "t2_7" (Op2 "+" (Op2 "^" (Op2 "^" (Op2 "|" (Op2 ">>" (Var "c") (Num 2)) (Op2 "<<" (Var "c") (Num 30))) (Op2 "|" (Op2 ">>" (Var "c") (Num 13)) (Op2 "<<" (Var "c") (Num 19)))) (Op2 "|" (Op2 ">>" (Var "c") (Num 22)) (Op2 "<<" (Var "c") (Num 10)))) (Op2 "|" (Op2 "&" (Var "c") (Var "d")) (Op2 "&" (Var "e") (Op2 "|" (Var "c") (Var "d")))));
      Assign "f" (Op2 "+" (Var "f") (Var "t1_7"));
      Assign "b" (Op2 "+" (Var "t1_7") (Var "t2_7"));
      Call "t8" "secp256k1_read_be32" [Op2 "[]" (Var "buf") (Num 28)];
      Assign "w7" (Var "t8");
      Assign "t1_8" (Op2 "+" (Op2 "+" (Op2 "+" (Op2 "+" (Var "a") (Op2 "^" (Op2 "^" (Op2 "|" (Op2 ">>" (Var "f") (Num 6)) (Op2 "<<" (Var "f") (Num 26))) (Op2 "|" (Op2 ">>" (Var "f") (Num 11)) (Op2 "<<" (Var "f") (Num 21)))) (Op2 "|" (Op2 ">>" (Var "f") (Num 25)) (Op2 "<<" (Var "f") (Num 7))))) (Op2 "^" (Var "h") (Op2 "&" (Var "f") (Op2 "^" (Var "g") (Var "h"))))) (Num 2870763221)) (Var "w7"));
      Assign "t2_8" (Op2 "+" (Op2 "^" (Op2 "^" (Op2 "|" (Op2 ">>" (Var "b") (Num 2)) (Op2 "<<" (Var "b") (Num 30))) (Op2 "|" (Op2 ">>" (Var "b") (Num 13)) (Op2 "<<" (Var "b") (Num 19)))) (Op2 "|" (Op2 ">>" (Var "b") (Num 22)) (Op2 "<<" (Var "b") (Num 10)))) (Op2 "|" (Op2 "&" (Var "b") (Var "c")) (Op2 "&" (Var "d") (Op2 "|" (Var "b") (Var "c")))));
      Assign "e" (Op2 "+" (Var "e") (Var "t1_8"));
      Assign "a" (Op2 "+" (Var "t1_8") (Var "t2_8"));
      Call "t9" "secp256k1_read_be32" [Op2 "[]" (Var "buf") (Num 32)];
      Assign "w8" (Var "t9");
      Assign "t1_9" (Op2 "+" (Op2 "+" (Op2 "+" (Op2 "+" (Var "h") (Op2 "^" (Op2 "^" (Op2 "|" (Op2 ">>" (Var "e") (Num 6)) (Op2 "<<" (Var "e") (Num 26))) (Op2 "|" (Op2 ">>" (Var "e") (Num 11)) (Op2 "<<" (Var "e") (Num 21)))) (Op2 "|" (Op2 ">>" (Var "e") (Num 25)) (Op2 "<<" (Var "e") (Num 7))))) (Op2 "^" (Var "g") (Op2 "&" (Var "e") (Op2 "^" (Var "f") (Var "g"))))) (Num 3624381080)) (Var "w8"));
      Assign "t2_9" (Op2 "+" (Op2 "^" (Op2 "^" (Op2 "|" (Op2 ">>" (Var "a") (Num 2)) (Op2 "<<" (Var "a") (Num 30))) (Op2 "|" (Op2 ">>" (Var "a") (Num 13)) (Op2 "<<" (Var "a") (Num 19)))) (Op2 "|" (Op2 ">>" (Var "a") (Num 22)) (Op2 "<<" (Var "a") (Num 10)))) (Op2 "|" (Op2 "&" (Var "a") (Var "b")) (Op2 "&" (Var "c") (Op2 "|" (Var "a") (Var "b")))));
      Assign "d" (Op2 "+" (Var "d") (Var "t1_9"));
      Assign "h" (Op2 "+" (Var "t1_9") (Var "t2_9"));
      Call "t10" "secp256k1_read_be32" [Op2 "[]" (Var "buf") (Num 36)];
      Assign "w9" (Var "t10");
      Assign "t1_10" (Op2 "+" (Op2 "+" (Op2 "+" (Op2 "+" (Var "g") (Op2 "^" (Op2 "^" (Op2 "|" (Op2 ">>" (Var "d") (Num 6)) (Op2 "<<" (Var "d") (Num 26))) (Op2 "|" (Op2 ">>" (Var "d") (Num 11)) (Op2 "<<" (Var "d") (Num 21)))) (Op2 "|" (Op2 ">>" (Var "d") (Num 25)) (Op2 "<<" (Var "d") (Num 7))))) (Op2 "^" (Var "f") (Op2 "&" (Var "d") (Op2 "^" (Var "e") (Var "f"))))) (Num 310598401)) (Var "w9"));
      Assign "t2_10" (Op2 "+" (Op2 "^" (Op2 "^" (Op2 "|" (Op2 ">>" (Var "h") (Num 2)) (Op2 "<<" (Var "h") (Num 30))) (Op2 "|" (Op2 ">>" (Var "h") (Num 13)) (Op2 "<<" (Var "h") (Num 19)))) (Op2 "|" (Op2 ">>" (Var "h") (Num 22)) (Op2 "<<" (Var "h") (Num 10)))) (Op2 "|" (Op2 "&" (Var "h") (Var "a")) (Op2 "&" (Var "b") (Op2 "|" (Var "h") (Var "a")))));
      Assign "c" (Op2 "+" (Var "c") (Var "t1_10"));
      Assign "g" (Op2 "+" (Var "t1_10") (Var "t2_10"));
      Call "t11" "secp256k1_read_be32" [Op2 "[]" (Var "buf") (Num 40)];
      Assign "w10" (Var "t11");
      Assign "t1_11" (Op2 "+" (Op2 "+" (Op2 "+" (Op2 "+" (Var "f") (Op2 "^" (Op2 "^" (Op2 "|" (Op2 ">>" (Var "c") (Num 6)) (Op2 "<<" (Var "c") (Num 26))) (Op2 "|" (Op2 ">>" (Var "c") (Num 11)) (Op2 "<<" (Var "c") (Num 21)))) (Op2 "|" (Op2 ">>" (Var "c") (Num 25)) (Op2 "<<" (Var "c") (Num 7))))) (Op2 "^" (Var "e") (Op2 "&" (Var "c") (Op2 "^" (Var "d") (Var "e"))))) (Num 607225278)) (Var "w10"));
      Assign "t2_11" (Op2 "+" (Op2 "^" (Op2 "^" (Op2 "|" (Op2 ">>" (Var "g") (Num 2)) (Op2 "<<" (Var "g") (Num 30))) (Op2 "|" (Op2 ">>" (Var "g") (Num 13)) (Op2 "<<" (Var "g") (Num 19)))) (Op2 "|" (Op2 ">>" (Var "g") (Num 22)) (Op2 "<<" (Var "g") (Num 10)))) (Op2 "|" (Op2 "&" (Var "g") (Var "h")) (Op2 "&" (Var "a") (Op2 "|" (Var "g") (Var "h")))));
      Assign "b" (Op2 "+" (Var "b") (Var "t1_11"));
      Assign "f" (Op2 "+" (Var "t1_11") (Var "t2_11"));
      Call "t12" "secp256k1_read_be32" [Op2 "[]" (Var "buf") (Num 44)];
      Assign "w11" (Var "t12");
      Assign "t1_12" (Op2 "+" (Op2 "+" (Op2 "+" (Op2 "+" (Var "e") (Op2 "^" (Op2 "^" (Op2 "|" (Op2 ">>" (Var "b") (Num 6)) (Op2 "<<" (Var "b") (Num 26))) (Op2 "|" (Op2 ">>" (Var "b") (Num 11)) (Op2 "<<" (Var "b") (Num 21)))) (Op2 "|" (Op2 ">>" (Var "b") (Num 25)) (Op2 "<<" (Var "b") (Num 7))))) (Op2 "^" (Var "d") (Op2 "&" (Var "b") (Op2 "^" (Var "c") (Var "d"))))) (Num 1426881987)) (Var "w11"));
      Assign "t2_12" (Op2 "+" (Op2 "^" (Op2 "^" (Op2 "|" (Op2 ">>" (Var "f") (Num 2)) (Op2 "<<" (Var "f") (Num 30))) (Op2 "|" (Op2 ">>" (Var "f") (Num 13)) (Op2 "<<" (Var "f") (Num 19)))) (Op2 "|" (Op2 ">>" (Var "f") (Num 22)) (Op2 "<<" (Var "f") (Num 10)))) (Op2 "|" (Op2 "&" (Var "f") (Var "g")) (Op2 "&" (Var "h") (Op2 "|" (Var "f") (Var "g")))));
      Assign "a" (Op2 "+" (Var "a") (Var "t1_12"));
      Assign "e" (Op2 "+" (Var "t1_12") (Var "t2_12"));
      Call "t13" "secp256k1_read_be32" [Op2 "[]" (Var "buf") (Num 48)];
      Assign "w12" (Var "t13");
      Assign "t1_13" (Op2 "+" (Op2 "+" (Op2 "+" (Op2 "+" (Var "d") (Op2 "^" (Op2 "^" (Op2 "|" (Op2 ">>" (Var "a") (Num 6)) (Op2 "<<" (Var "a") (Num 26))) (Op2 "|" (Op2 ">>" (Var "a") (Num 11)) (Op2 "<<" (Var "a") (Num 21)))) (Op2 "|" (Op2 ">>" (Var "a") (Num 25)) (Op2 "<<" (Var "a") (Num 7))))) (Op2 "^" (Var "c") (Op2 "&" (Var "a") (Op2 "^" (Var "b") (Var "c"))))) (Num 1925078388)) (Var "w12"));
      Assign "t2_13" (Op2 "+" (Op2 "^" (Op2 "^" (Op2 "|" (Op2 ">>" (Var "e") (Num 2)) (Op2 "<<" (Var "e") (Num 30))) (Op2 "|" (Op2 ">>" (Var "e") (Num 13)) (Op2 "<<" (Var "e") (Num 19)))) (Op2 "|" (Op2 ">>" (Var "e") (Num 22)) (Op2 "<<" (Var "e") (Num 10)))) (Op2 "|" (Op2 "&" (Var "e") (Var "f")) (Op2 "&" (Var "g") (Op2 "|" (Var "e") (Var "f")))));
      Assign "h" (Op2 "+" (Var "h") (Var "t1_13"));
      Assign "d" (Op2 "+" (Var "t1_13") (Var "t2_13"));
      Call "t14" "secp256k1_read_be32" [Op2 "[]" (Var "buf") (Num 52)];
      Assign "w13" (Var "t14");
      Assign "t1_14" (Op2 "+" (Op2 "+" (Op2 "+" (Op2 "+" (Var "c") (Op2 "^" (Op2 "^" (Op2 "|" (Op2 ">>" (Var "h") (Num 6)) (Op2 "<<" (Var "h") (Num 26))) (Op2 "|" (Op2 ">>" (Var "h") (Num 11)) (Op2 "<<" (Var "h") (Num 21)))) (Op2 "|" (Op2 ">>" (Var "h") (Num 25)) (Op2 "<<" (Var "h") (Num 7))))) (Op2 "^" (Var "b") (Op2 "&" (Var "h") (Op2 "^" (Var "a") (Var "b"))))) (Num 2162078206)) (Var "w13"));
      Assign "t2_14" (Op2 "+" (Op2 "^" (Op2 "^" (Op2 "|" (Op2 ">>" (Var "d") (Num 2)) (Op2 "<<" (Var "d") (Num 30))) (Op2 "|" (Op2 ">>" (Var "d") (Num 13)) (Op2 "<<" (Var "d") (Num 19)))) (Op2 "|" (Op2 ">>" (Var "d") (Num 22)) (Op2 "<<" (Var "d") (Num 10)))) (Op2 "|" (Op2 "&" (Var "d") (Var "e")) (Op2 "&" (Var "f") (Op2 "|" (Var "d") (Var "e")))));
      Assign "g" (Op2 "+" (Var "g") (Var "t1_14"));
      Assign "c" (Op2 "+" (Var "t1_14") (Var "t2_14"));
      Call "t15" "secp256k1_read_be32" [Op2 "[]" (Var "buf") (Num 56)];
      Assign "w14" (Var "t15");
      Assign "t1_15" (Op2 "+" (Op2 "+" (Op2 "+" (Op2 "+" (Var "b") (Op2 "^" (Op2 "^" (Op2 "|" (Op2 ">>" (Var "g") (Num 6)) (Op2 "<<" (Var "g") (Num 26))) (Op2 "|" (Op2 ">>" (Var "g") (Num 11)) (Op2 "<<" (Var "g") (Num 21)))) (Op2 "|" (Op2 ">>" (Var "g") (Num 25)) (Op2 "<<" (Var "g") (Num 7))))) (Op2 "^" (Var "a") (Op2 "&" (Var "g") (Op2 "^" (Var "h") (Var "a"))))) (Num 2614888103)) (Var "w14"));
      Assign "t2_15" (Op2 "+" (Op2 "^" (Op2 "^" (Op2 "|" (Op2 ">>" (Var "c") (Num 2)) (Op2 "<<" (Var "c") (Num 30))) (Op2 "|" (Op2 ">>" (Var "c") (Num 13)) (Op2 "<<" (Var "c") (Num 19)))) (Op2 "|" (Op2 ">>" (Var "c") (Num 22)) (Op2 "<<" (Var "c") (Num 10)))) (Op2 "|" (Op2 "&" (Var "c") (Var "d")) (Op2 "&" (Var "e") (Op2 "|" (Var "c") (Var "d")))));
      Assign "f" (Op2 "+" (Var "f") (Var "t1_15"));
      Assign "b" (Op2 "+" (Var "t1_15") (Var "t2_15"));
      Call "t16" "secp256k1_read_be32" [Op2 "[]" (Var "buf") (Num 60)];
      Assign "w15" (Var "t16");
      Assign "t1_16" (Op2 "+" (Op2 "+" (Op2 "+" (Op2 "+" (Var "a") (Op2 "^" (Op2 "^" (Op2 "|" (Op2 ">>" (Var "f") (Num 6)) (Op2 "<<" (Var "f") (Num 26))) (Op2 "|" (Op2 ">>" (Var "f") (Num 11)) (Op2 "<<" (Var "f") (Num 21)))) (Op2 "|" (Op2 ">>" (Var "f") (Num 25)) (Op2 "<<" (Var "f") (Num 7))))) (Op2 "^" (Var "h") (Op2 "&" (Var "f") (Op2 "^" (Var "g") (Var "h"))))) (Num 3248222580)) (Var "w15"));
      Assign "t2_16" (Op2 "+" (Op2 "^" (Op2 "^" (Op2 "|" (Op2 ">>" (Var "b") (Num 2)) (Op2 "<<" (Var "b") (Num 30))) (Op2 "|" (Op2 ">>" (Var "b") (Num 13)) (Op2 "<<" (Var "b") (Num 19)))) (Op2 "|" (Op2 ">>" (Var "b") (Num 22)) (Op2 "<<" (Var "b") (Num 10)))) (Op2 "|" (Op2 "&" (Var "b") (Var "c")) (Op2 "&" (Var "d") (Op2 "|" (Var "b") (Var "c")))));
      Assign "e" (Op2 "+" (Var "e") (Var "t1_16"));
      Assign "a" (Op2 "+" (Var "t1_16") (Var "t2_16"));
      Assign "w0" (Op2 "+" (Var "w0") (Op2 "+" (Op2 "+" (Op2 "^" (Op2 "^" (Op2 "|" (Op2 ">>" (Var "w14") (Num 17)) (Op2 "<<" (Var "w14") (Num 15))) (Op2 "|" (Op2 ">>" (Var "w14") (Num 19)) (Op2 "<<" (Var "w14") (Num 13)))) (Op2 ">>" (Var "w14") (Num 10))) (Var "w9")) (Op2 "^" (Op2 "^" (Op2 "|" (Op2 ">>" (Var "w1") (Num 7)) (Op2 "<<" (Var "w1") (Num 25))) (Op2 "|" (Op2 ">>" (Var "w1") (Num 18)) (Op2 "<<" (Var "w1") (Num 14)))) (Op2 ">>" (Var "w1") (Num 3)))));
      Assign "t1_17" (Op2 "+" (Op2 "+" (Op2 "+" (Op2 "+" (Var "h") (Op2 "^" (Op2 "^" (Op2 "|" (Op2 ">>" (Var "e") (Num 6)) (Op2 "<<" (Var "e") (Num 26))) (Op2 "|" (Op2 ">>" (Var "e") (Num 11)) (Op2 "<<" (Var "e") (Num 21)))) (Op2 "|" (Op2 ">>" (Var "e") (Num 25)) (Op2 "<<" (Var "e") (Num 7))))) (Op2 "^" (Var "g") (Op2 "&" (Var "e") (Op2 "^" (Var "f") (Var "g"))))) (Num 3835390401)) (Var "w0"));
      Assign "t2_17" (Op2 "+" (Op2 "^" (Op2 "^" (Op2 "|" (Op2 ">>" (Var "a") (Num 2)) (Op2 "<<" (Var "a") (Num 30))) (Op2 "|" (Op2 ">>" (Var "a") (Num 13)) (Op2 "<<" (Var "a") (Num 19)))) (Op2 "|" (Op2 ">>" (Var "a") (Num 22)) (Op2 "<<" (Var "a") (Num 10)))) (Op2 "|" (Op2 "&" (Var "a") (Var "b")) (Op2 "&" (Var "c") (Op2 "|" (Var "a") (Var "b")))));
      Assign "d" (Op2 "+" (Var "d") (Var "t1_17"));
      Assign "h" (Op2 "+" (Var "t1_17") (Var "t2_17"));
      Assign "w1" (Op2 "+" (Var "w1") (Op2 "+" (Op2 "+" (Op2 "^" (Op2 "^" (Op2 "|" (Op2 ">>" (Var "w15") (Num 17)) (Op2 "<<" (Var "w15") (Num 15))) (Op2 "|" (Op2 ">>" (Var "w15") (Num 19)) (Op2 "<<" (Var "w15") (Num 13)))) (Op2 ">>" (Var "w15") (Num 10))) (Var "w10")) (Op2 "^" (Op2 "^" (Op2 "|" (Op2 ">>" (Var "w2") (Num 7)) (Op2 "<<" (Var "w2") (Num 25))) (Op2 "|" (Op2 ">>" (Var "w2") (Num 18)) (Op2 "<<" (Var "w2") (Num 14)))) (Op2 ">>" (Var "w2") (Num 3)))));
      Assign "t1_18" (Op2 "+" (Op2 "+" (Op2 "+" (Op2 "+" (Var "g") (Op2 "^" (Op2 "^" (Op2 "|" (Op2 ">>" (Var "d") (Num 6)) (Op2 "<<" (Var "d") (Num 26))) (Op2 "|" (Op2 ">>" (Var "d") (Num 11)) (Op2 "<<" (Var "d") (Num 21)))) (Op2 "|" (Op2 ">>" (Var "d") (Num 25)) (Op2 "<<" (Var "d") (Num 7))))) (Op2 "^" (Var "f") (Op2 "&" (Var "d") (Op2 "^" (Var "e") (Var "f"))))) (Num 4022224774)) (Var "w1"));
      Assign "t2_18" (Op2 "+" (Op2 "^" (Op2 "^" (Op2 "|" (Op2 ">>" (Var "h") (Num 2)) (Op2 "<<" (Var "h") (Num 30))) (Op2 "|" (Op2 ">>" (Var "h") (Num 13)) (Op2 "<<" (Var "h") (Num 19)))) (Op2 "|" (Op2 ">>" (Var "h") (Num 22)) (Op2 "<<" (Var "h") (Num 10)))) (Op2 "|" (Op2 "&" (Var "h") (Var "a")) (Op2 "&" (Var "b") (Op2 "|" (Var "h") (Var "a")))));
      Assign "c" (Op2 "+" (Var "c") (Var "t1_18"));
      Assign "g" (Op2 "+" (Var "t1_18") (Var "t2_18"));
      Assign "w2" (Op2 "+" (Var "w2") (Op2 "+" (Op2 "+" (Op2 "^" (Op2 "^" (Op2 "|" (Op2 ">>" (Var "w0") (Num 17)) (Op2 "<<" (Var "w0") (Num 15))) (Op2 "|" (Op2 ">>" (Var "w0") (Num 19)) (Op2 "<<" (Var "w0") (Num 13)))) (Op2 ">>" (Var "w0") (Num 10))) (Var "w11")) (Op2 "^" (Op2 "^" (Op2 "|" (Op2 ">>" (Var "w3") (Num 7)) (Op2 "<<" (Var "w3") (Num 25))) (Op2 "|" (Op2 ">>" (Var "w3") (Num 18)) (Op2 "<<" (Var "w3") (Num 14)))) (Op2 ">>" (Var "w3") (Num 3)))));
      Assign "t1_19" (Op2 "+" (Op2 "+" (Op2 "+" (Op2 "+" (Var "f") (Op2 "^" (Op2 "^" (Op2 "|" (Op2 ">>" (Var "c") (Num 6)) (Op2 "<<" (Var "c") (Num 26))) (Op2 "|" (Op2 ">>" (Var "c") (Num 11)) (Op2 "<<" (Var "c") (Num 21)))) (Op2 "|" (Op2 ">>" (Var "c") (Num 25)) (Op2 "<<" (Var "c") (Num 7))))) (Op2 "^" (Var "e") (Op2 "&" (Var "c") (Op2 "^" (Var "d") (Var "e"))))) (Num 264347078)) (Var "w2"));
      Assign "t2_19" (Op2 "+" (Op2 "^" (Op2 "^" (Op2 "|" (Op2 ">>" (Var "g") (Num 2)) (Op2 "<<" (Var "g") (Num 30))) (Op2 "|" (Op2 ">>" (Var "g") (Num 13)) (Op2 "<<" (Var "g") (Num 19)))) (Op2 "|" (Op2 ">>" (Var "g") (Num 22)) (Op2 "<<" (Var "g") (Num 10)))) (Op2 "|" (Op2 "&" (Var "g") (Var "h")) (Op2 "&" (Var "a") (Op2 "|" (Var "g") (Var "h")))));
      Assign "b" (Op2 "+" (Var "b") (Var "t1_19"));
      Assign "f" (Op2 "+" (Var "t1_19") (Var "t2_19"));
      Assign "w3" (Op2 "+" (Var "w3") (Op2 "+" (Op2 "+" (Op2 "^" (Op2 "^" (Op2 "|" (Op2 ">>" (Var "w1") (Num 17)) (Op2 "<<" (Var "w1") (Num 15))) (Op2 "|" (Op2 ">>" (Var "w1") (Num 19)) (Op2 "<<" (Var "w1") (Num 13)))) (Op2 ">>" (Var "w1") (Num 10))) (Var "w12")) (Op2 "^" (Op2 "^" (Op2 "|" (Op2 ">>" (Var "w4") (Num 7)) (Op2 "<<" (Var "w4") (Num 25))) (Op2 "|" (Op2 ">>" (Var "w4") (Num 18)) (Op2 "<<" (Var "w4") (Num 14)))) (Op2 ">>" (Var "w4") (Num 3)))));
      Assign "t1_20" (Op2 "+" (Op2 "+" (Op2 "+" (Op2 "+" (Var "e") (Op2 "^" (Op2 "^" (Op2 "|" (Op2 ">>" (Var "b") (Num 6)) (Op2 "<<" (Var "b") (Num 26))) (Op2 "|" (Op2 ">>" (Var "b") (Num 11)) (Op2 "<<" (Var "b") (Num 21)))) (Op2 "|" (Op2 ">>" (Var "b") (Num 25)) (Op2 "<<" (Var "b") (Num 7))))) (Op2 "^" (Var "d") (Op2 "&" (Var "b") (Op2 "^" (Var "c") (Var "d"))))) (Num 604807628)) (Var "w3"));
      Assign "t2_20" (Op2 "+" (Op2 "^" (Op2 "^" (Op2 "|" (Op2 ">>" (Var "f") (Num 2)) (Op2 "<<" (Var "f") (Num 30))) (Op2 "|" (Op2 ">>" (Var "f") (Num 13)) (Op2 "<<" (Var "f") (Num 19)))) (Op2 "|" (Op2 ">>" (Var "f") (Num 22)) (Op2 "<<" (Var "f") (Num 10)))) (Op2 "|" (Op2 "&" (Var "f") (Var "g")) (Op2 "&" (Var "h") (Op2 "|" (Var "f") (Var "g")))));
      Assign "a" (Op2 "+" (Var "a") (Var "t1_20"));
      Assign "e" (Op2 "+" (Var "t1_20") (Var "t2_20"));
      Assign "w4" (Op2 "+" (Var "w4") (Op2 "+" (Op2 "+" (Op2 "^" (Op2 "^" (Op2 "|" (Op2 ">>" (Var "w2") (Num 17)) (Op2 "<<" (Var "w2") (Num 15))) (Op2 "|" (Op2 ">>" (Var "w2") (Num 19)) (Op2 "<<" (Var "w2") (Num 13)))) (Op2 ">>" (Var "w2") (Num 10))) (Var "w13")) (Op2 "^" (Op2 "^" (Op2 "|" (Op2 ">>" (Var "w5") (Num 7)) (Op2 "<<" (Var "w5") (Num 25))) (Op2 "|" (Op2 ">>" (Var "w5") (Num 18)) (Op2 "<<" (Var "w5") (Num 14)))) (Op2 ">>" (Var "w5") (Num 3)))));
      Assign "t1_21" (Op2 "+" (Op2 "+" (Op2 "+" (Op2 "+" (Var "d") (Op2 "^" (Op2 "^" (Op2 "|" (Op2 ">>" (Var "a") (Num 6)) (Op2 "<<" (Var "a") (Num 26))) (Op2 "|" (Op2 ">>" (Var "a") (Num 11)) (Op2 "<<" (Var "a") (Num 21)))) (Op2 "|" (Op2 ">>" (Var "a") (Num 25)) (Op2 "<<" (Var "a") (Num 7))))) (Op2 "^" (Var "c") (Op2 "&" (Var "a") (Op2 "^" (Var "b") (Var "c"))))) (Num 770255983)) (Var "w4"));
      Assign "t2_21" (Op2 "+" (Op2 "^" (Op2 "^" (Op2 "|" (Op2 ">>" (Var "e") (Num 2)) (Op2 "<<" (Var "e") (Num 30))) (Op2 "|" (Op2 ">>" (Var "e") (Num 13)) (Op2 "<<" (Var "e") (Num 19)))) (Op2 "|" (Op2 ">>" (Var "e") (Num 22)) (Op2 "<<" (Var "e") (Num 10)))) (Op2 "|" (Op2 "&" (Var "e") (Var "f")) (Op2 "&" (Var "g") (Op2 "|" (Var "e") (Var "f")))));
      Assign "h" (Op2 "+" (Var "h") (Var "t1_21"));
      Assign "d" (Op2 "+" (Var "t1_21") (Var "t2_21"));
      Assign "w5" (Op2 "+" (Var "w5") (Op2 "+" (Op2 "+" (Op2 "^" (Op2 "^" (Op2 "|" (Op2 ">>" (Var "w3") (Num 17)) (Op2 "<<" (Var "w3") (Num 15))) (Op2 "|" (Op2 ">>" (Var "w3") (Num 19)) (Op2 "<<" (Var "w3") (Num 13)))) (Op2 ">>" (Var "w3") (Num 10))) (Var "w14")) (Op2 "^" (Op2 "^" (Op2 "|" (Op2 ">>" (Var "w6") (Num 7)) (Op2 "<<" (Var "w6") (Num 25))) (Op2 "|" (Op2 ">>" (Var "w6") (Num 18)) (Op2 "<<" (Var "w6") (Num 14)))) (Op2 ">>" (Var "w6") (Num 3)))));
      Assign "t1_22" (Op2 "+" (Op2 "+" (Op2 "+" (Op2 "+" (Var "c") (Op2 "^" (Op2 "^" (Op2 "|" (Op2 ">>" (Var "h") (Num 6)) (Op2 "<<" (Var "h") (Num 26))) (Op2 "|" (Op2 ">>" (Var "h") (Num 11)) (Op2 "<<" (Var "h") (Num 21)))) (Op2 "|" (Op2 ">>" (Var "h") (Num 25)) (Op2 "<<" (Var "h") (Num 7))))) (Op2 "^" (Var "b") (Op2 "&" (Var "h") (Op2 "^" (Var "a") (Var "b"))))) (Num 1249150122)) (Var "w5"));
      Assign "t2_22" (Op2 "+" (Op2 "^" (Op2 "^" (Op2 "|" (Op2 ">>" (Var "d") (Num 2)) (Op2 "<<" (Var "d") (Num 30))) (Op2 "|" (Op2 ">>" (Var "d") (Num 13)) (Op2 "<<" (Var "d") (Num 19)))) (Op2 "|" (Op2 ">>" (Var "d") (Num 22)) (Op2 "<<" (Var "d") (Num 10)))) (Op2 "|" (Op2 "&" (Var "d") (Var "e")) (Op2 "&" (Var "f") (Op2 "|" (Var "d") (Var "e")))));
      Assign "g" (Op2 "+" (Var "g") (Var "t1_22"));
      Assign "c" (Op2 "+" (Var "t1_22") (Var "t2_22"));
      Assign "w6" (Op2 "+" (Var "w6") (Op2 "+" (Op2 "+" (Op2 "^" (Op2 "^" (Op2 "|" (Op2 ">>" (Var "w4") (Num 17)) (Op2 "<<" (Var "w4") (Num 15))) (Op2 "|" (Op2 ">>" (Var "w4") (Num 19)) (Op2 "<<" (Var "w4") (Num 13)))) (Op2 ">>" (Var "w4") (Num 10))) (Var "w15")) (Op2 "^" (Op2 "^" (Op2 "|" (Op2 ">>" (Var "w7") (Num 7)) (Op2 "<<" (Var "w7") (Num 25))) (Op2 "|" (Op2 ">>" (Var "w7") (Num 18)) (Op2 "<<" (Var "w7") (Num 14)))) (Op2 ">>" (Var "w7") (Num 3)))));
      Assign "t1_23" (Op2 "+" (Op2 "+" (Op2 "+" (Op2 "+" (Var "b") (Op2 "^" (Op2 "^" (Op2 "|" (Op2 ">>" (Var "g") (Num 6)) (Op2 "<<" (Var "g") (Num 26))) (Op2 "|" (Op2 ">>" (Var "g") (Num 11)) (Op2 "<<" (Var "g") (Num 21)))) (Op2 "|" (Op2 ">>" (Var "g") (Num 25)) (Op2 "<<" (Var "g") (Num 7))))) (Op2 "^" (Var "a") (Op2 "&" (Var "g") (Op2 "^" (Var "h") (Var "a"))))) (Num 1555081692)) (Var "w6"));
      Assign "t2_23" (Op2 "+" (Op2 "^" (Op2 "^" (Op2 "|" (Op2 ">>" (Var "c") (Num 2)) (Op2 "<<" (Var "c") (Num 30))) (Op2 "|" (Op2 ">>" (Var "c") (Num 13)) (Op2 "<<" (Var "c") (Num 19)))) (Op2 "|" (Op2 ">>" (Var "c") (Num 22)) (Op2 "<<" (Var "c") (Num 10)))) (Op2 "|" (Op2 "&" (Var "c") (Var "d")) (Op2 "&" (Var "e") (Op2 "|" (Var "c") (Var "d")))));
      Assign "f" (Op2 "+" (Var "f") (Var "t1_23"));
      Assign "b" (Op2 "+" (Var "t1_23") (Var "t2_23"));
      Assign "w7" (Op2 "+" (Var "w7") (Op2 "+" (Op2 "+" (Op2 "^" (Op2 "^" (Op2 "|" (Op2 ">>" (Var "w5") (Num 17)) (Op2 "<<" (Var "w5") (Num 15))) (Op2 "|" (Op2 ">>" (Var "w5") (Num 19)) (Op2 "<<" (Var "w5") (Num 13)))) (Op2 ">>" (Var "w5") (Num 10))) (Var "w0")) (Op2 "^" (Op2 "^" (Op2 "|" (Op2 ">>" (Var "w8") (Num 7)) (Op2 "<<" (Var "w8") (Num 25))) (Op2 "|" (Op2 ">>" (Var "w8") (Num 18)) (Op2 "<<" (Var "w8") (Num 14)))) (Op2 ">>" (Var "w8") (Num 3)))));
      Assign "t1_24" (Op2 "+" (Op2 "+" (Op2 "+" (Op2 "+" (Var "a") (Op2 "^" (Op2 "^" (Op2 "|" (Op2 ">>" (Var "f") (Num 6)) (Op2 "<<" (Var "f") (Num 26))) (Op2 "|" (Op2 ">>" (Var "f") (Num 11)) (Op2 "<<" (Var "f") (Num 21)))) (Op2 "|" (Op2 ">>" (Var "f") (Num 25)) (Op2 "<<" (Var "f") (Num 7))))) (Op2 "^" (Var "h") (Op2 "&" (Var "f") (Op2 "^" (Var "g") (Var "h"))))) (Num 1996064986)) (Var "w7"));
      Assign "t2_24" (Op2 "+" (Op2 "^" (Op2 "^" (Op2 "|" (Op2 ">>" (Var "b") (Num 2)) (Op2 "<<" (Var "b") (Num 30))) (Op2 "|" (Op2 ">>" (Var "b") (Num 13)) (Op2 "<<" (Var "b") (Num 19)))) (Op2 "|" (Op2 ">>" (Var "b") (Num 22)) (Op2 "<<" (Var "b") (Num 10)))) (Op2 "|" (Op2 "&" (Var "b") (Var "c")) (Op2 "&" (Var "d") (Op2 "|" (Var "b") (Var "c")))));
      Assign "e" (Op2 "+" (Var "e") (Var "t1_24"));
      Assign "a" (Op2 "+" (Var "t1_24") (Var "t2_24"));
      Assign "w8" (Op2 "+" (Var "w8") (Op2 "+" (Op2 "+" (Op2 "^" (Op2 "^" (Op2 "|" (Op2 ">>" (Var "w6") (Num 17)) (Op2 "<<" (Var "w6") (Num 15))) (Op2 "|" (Op2 ">>" (Var "w6") (Num 19)) (Op2 "<<" (Var "w6") (Num 13)))) (Op2 ">>" (Var "w6") (Num 10))) (Var "w1")) (Op2 "^" (Op2 "^" (Op2 "|" (Op2 ">>" (Var "w9") (Num 7)) (Op2 "<<" (Var "w9") (Num 25))) (Op2 "|" (Op2 ">>" (Var "w9") (Num 18)) (Op2 "<<" (Var "w9") (Num 14)))) (Op2 ">>" (Var "w9") (Num 3)))));
      Assign "t1_25" (Op2 "+" (Op2 "+" (Op2 "+" (Op2 "+" (Var "h") (Op2 "^" (Op2 "^" (Op2 "|" (Op2 ">>" (Var "e") (Num 6)) (Op2 "<<" (Var "e") (Num 26))) (Op2 "|" (Op2 ">>" (Var "e") (Num 11)) (Op2 "<<" (Var "e") (Num 21)))) (Op2 "|" (Op2 ">>" (Var "e") (Num 25)) (Op2 "<<" (Var "e") (Num 7))))) (Op2 "^" (Var "g") (Op2 "&" (Var "e") (Op2 "^" (Var "f") (Var "g"))))) (Num 2554220882)) (Var "w8"));
      Assign "t2_25" (Op2 "+" (Op2 "^" (Op2 "^" (Op2 "|" (Op2 ">>" (Var "a") (Num 2)) (Op2 "<<" (Var "a") (Num 30))) (Op2 "|" (Op2 ">>" (Var "a") (Num 13)) (Op2 "<<" (Var "a") (Num 19)))) (Op2 "|" (Op2 ">>" (Var "a") (Num 22)) (Op2 "<<" (Var "a") (Num 10)))) (Op2 "|" (Op2 "&" (Var "a") (Var "b")) (Op2 "&" (Var "c") (Op2 "|" (Var "a") (Var "b")))));
      Assign "d" (Op2 "+" (Var "d") (Var "t1_25"));
      Assign "h" (Op2 "+" (Var "t1_25") (Var "t2_25"));
      Assign "w9" (Op2 "+" (Var "w9") (Op2 "+" (Op2 "+" (Op2 "^" (Op2 "^" (Op2 "|" (Op2 ">>" (Var "w7") (Num 17)) (Op2 "<<" (Var "w7") (Num 15))) (Op2 "|" (Op2 ">>" (Var "w7") (Num 19)) (Op2 "<<" (Var "w7") (Num 13)))) (Op2 ">>" (Var "w7") (Num 10))) (Var "w2")) (Op2 "^" (Op2 "^" (Op2 "|" (Op2 ">>" (Var "w10") (Num 7)) (Op2 "<<" (Var "w10") (Num 25))) (Op2 "|" (Op2 ">>" (Var "w10") (Num 18)) (Op2 "<<" (Var "w10") (Num 14)))) (Op2 ">>" (Var "w10") (Num 3)))));
      Assign "t1_26" (Op2 "+" (Op2 "+" (Op2 "+" (Op2 "+" (Var "g") (Op2 "^" (Op2 "^" (Op2 "|" (Op2 ">>" (Var "d") (Num 6)) (Op2 "<<" (Var "d") (Num 26))) (Op2 "|" (Op2 ">>" (Var "d") (Num 11)) (Op2 "<<" (Var "d") (Num 21)))) (Op2 "|" (Op2 ">>" (Var "d") (Num 25)) (Op2 "<<" (Var "d") (Num 7))))) (Op2 "^" (Var "f") (Op2 "&" (Var "d") (Op2 "^" (Var "e") (Var "f"))))) (Num 2821834349)) (Var "w9"));
      Assign "t2_26" (Op2 "+" (Op2 "^" (Op2 "^" (Op2 "|" (Op2 ">>" (Var "h") (Num 2)) (Op2 "<<" (Var "h") (Num 30))) (Op2 "|" (Op2 ">>" (Var "h") (Num 13)) (Op2 "<<" (Var "h") (Num 19)))) (Op2 "|" (Op2 ">>" (Var "h") (Num 22)) (Op2 "<<" (Var "h") (Num 10)))) (Op2 "|" (Op2 "&" (Var "h") (Var "a")) (Op2 "&" (Var "b") (Op2 "|" (Var "h") (Var "a")))));
      Assign "c" (Op2 "+" (Var "c") (Var "t1_26"));
      Assign "g" (Op2 "+" (Var "t1_26") (Var "t2_26"));
      Assign "w10" (Op2 "+" (Var "w10") (Op2 "+" (Op2 "+" (Op2 "^" (Op2 "^" (Op2 "|" (Op2 ">>" (Var "w8") (Num 17)) (Op2 "<<" (Var "w8") (Num 15))) (Op2 "|" (Op2 ">>" (Var "w8") (Num 19)) (Op2 "<<" (Var "w8") (Num 13)))) (Op2 ">>" (Var "w8") (Num 10))) (Var "w3")) (Op2 "^" (Op2 "^" (Op2 "|" (Op2 ">>" (Var "w11") (Num 7)) (Op2 "<<" (Var "w11") (Num 25))) (Op2 "|" (Op2 ">>" (Var "w11") (Num 18)) (Op2 "<<" (Var "w11") (Num 14)))) (Op2 ">>" (Var "w11") (Num 3)))));
      Assign "t1_27" (Op2 "+" (Op2 "+" (Op2 "+" (Op2 "+" (Var "f") (Op2 "^" (Op2 "^" (Op2 "|" (Op2 ">>" (Var "c") (Num 6)) (Op2 "<<" (Var "c") (Num 26))) (Op2 "|" (Op2 ">>" (Var "c") (Num 11)) (Op2 "<<" (Var "c") (Num 21)))) (Op2 "|" (Op2 ">>" (Var "c") (Num 25)) (Op2 "<<" (Var "c") (Num 7))))) (Op2 "^" (Var "e") (Op2 "&" (Var "c") (Op2 "^" (Var "d") (Var "e"))))) (Num 2952996808)) (Var "w10"));
      Assign "t2_27" (Op2 "+" (Op2 "^" (Op2 "^" (Op2 "|" (Op2 ">>" (Var "g") (Num 2)) (Op2 "<<" (Var "g") (Num 30))) (Op2 "|" (Op2 ">>" (Var "g") (Num 13)) (Op2 "<<" (Var "g") (Num 19)))) (Op2 "|" (Op2 ">>" (Var "g") (Num 22)) (Op2 "<<" (Var "g") (Num 10)))) (Op2 "|" (Op2 "&" (Var "g") (Var "h")) (Op2 "&" (Var "a") (Op2 "|" (Var "g") (Var "h")))));
      Assign "b" (Op2 "+" (Var "b") (Var "t1_27"));
      Assign "f" (Op2 "+" (Var "t1_27") (Var "t2_27"));
      Assign "w11" (Op2 "+" (Var "w11") (Op2 "+" (Op2 "+" (Op2 "^" (Op2 "^" (Op2 "|" (Op2 ">>" (Var "w9") (Num 17)) (Op2 "<<" (Var "w9") (Num 15))) (Op2 "|" (Op2 ">>" (Var "w9") (Num 19)) (Op2 "<<" (Var "w9") (Num 13)))) (Op2 ">>" (Var "w9") (Num 10))) (Var "w4")) (Op2 "^" (Op2 "^" (Op2 "|" (Op2 ">>" (Var "w12") (Num 7)) (Op2 "<<" (Var "w12") (Num 25))) (Op2 "|" (Op2 ">>" (Var "w12") (Num 18)) (Op2 "<<" (Var "w12") (Num 14)))) (Op2 ">>" (Var "w12") (Num 3)))));
      Assign "t1_28" (Op2 "+" (Op2 "+" (Op2 "+" (Op2 "+" (Var "e") (Op2 "^" (Op2 "^" (Op2 "|" (Op2 ">>" (Var "b") (Num 6)) (Op2 "<<" (Var "b") (Num 26))) (Op2 "|" (Op2 ">>" (Var "b") (Num 11)) (Op2 "<<" (Var "b") (Num 21)))) (Op2 "|" (Op2 ">>" (Var "b") (Num 25)) (Op2 "<<" (Var "b") (Num 7))))) (Op2 "^" (Var "d") (Op2 "&" (Var "b") (Op2 "^" (Var "c") (Var "d"))))) (Num 3210313671)) (Var "w11"));
      Assign "t2_28" (Op2 "+" (Op2 "^" (Op2 "^" (Op2 "|" (Op2 ">>" (Var "f") (Num 2)) (Op2 "<<" (Var "f") (Num 30))) (Op2 "|" (Op2 ">>" (Var "f") (Num 13)) (Op2 "<<" (Var "f") (Num 19)))) (Op2 "|" (Op2 ">>" (Var "f") (Num 22)) (Op2 "<<" (Var "f") (Num 10)))) (Op2 "|" (Op2 "&" (Var "f") (Var "g")) (Op2 "&" (Var "h") (Op2 "|" (Var "f") (Var "g")))));
      Assign "a" (Op2 "+" (Var "a") (Var "t1_28"));
      Assign "e" (Op2 "+" (Var "t1_28") (Var "t2_28"));
      Assign "w12" (Op2 "+" (Var "w12") (Op2 "+" (Op2 "+" (Op2 "^" (Op2 "^" (Op2 "|" (Op2 ">>" (Var "w10") (Num 17)) (Op2 "<<" (Var "w10") (Num 15))) (Op2 "|" (Op2 ">>" (Var "w10") (Num 19)) (Op2 "<<" (Var "w10") (Num 13)))) (Op2 ">>" (Var "w10") (Num 10))) (Var "w5")) (Op2 "^" (Op2 "^" (Op2 "|" (Op2 ">>" (Var "w13") (Num 7)) (Op2 "<<" (Var "w13") (Num 25))) (Op2 "|" (Op2 ">>" (Var "w13") (Num 18)) (Op2 "<<" (Var "w13") (Num 14)))) (Op2 ">>" (Var "w13") (Num 3)))));
      Assign "t1_29" (Op2 "+" (Op2 "+" (Op2 "+" (Op2 "+" (Var "d") (Op2 "^" (Op2 "^" (Op2 "|" (Op2 ">>" (Var "a") (Num 6)) (Op2 "<<" (Var "a") (Num 26))) (Op2 "|" (Op2 ">>" (Var "a") (Num 11)) (Op2 "<<" (Var "a") (Num 21)))) (Op2 "|" (Op2 ">>" (Var "a") (Num 25)) (Op2 "<<" (Var "a") (Num 7))))) (Op2 "^" (Var "c") (Op2 "&" (Var "a") (Op2 "^" (Var "b") (Var "c"))))) (Num 3336571891)) (Var "w12"));
      Assign "t2_29" (Op2 "+" (Op2 "^" (Op2 "^" (Op2 "|" (Op2 ">>" (Var "e") (Num 2)) (Op2 "<<" (Var "e") (Num 30))) (Op2 "|" (Op2 ">>" (Var "e") (Num 13)) (Op2 "<<" (Var "e") (Num 19)))) (Op2 "|" (Op2 ">>" (Var "e") (Num 22)) (Op2 "<<" (Var "e") (Num 10)))) (Op2 "|" (Op2 "&" (Var "e") (Var "f")) (Op2 "&" (Var "g") (Op2 "|" (Var "e") (Var "f")))));
      Assign "h" (Op2 "+" (Var "h") (Var "t1_29"));
      Assign "d" (Op2 "+" (Var "t1_29") (Var "t2_29"));
      Assign "w13" (Op2 "+" (Var "w13") (Op2 "+" (Op2 "+" (Op2 "^" (Op2 "^" (Op2 "|" (Op2 ">>" (Var "w11") (Num 17)) (Op2 "<<" (Var "w11") (Num 15))) (Op2 "|" (Op2 ">>" (Var "w11") (Num 19)) (Op2 "<<" (Var "w11") (Num 13)))) (Op2 ">>" (Var "w11") (Num 10))) (Var "w6")) (Op2 "^" (Op2 "^" (Op2 "|" (Op2 ">>" (Var "w14") (Num 7)) (Op2 "<<" (Var "w14") (Num 25))) (Op2 "|" (Op2 ">>" (Var "w14") (Num 18)) (Op2 "<<" (Var "w14") (Num 14)))) (Op2 ">>" (Var "w14") (Num 3)))));
      Assign "t1_30" (Op2 "+" (Op2 "+" (Op2 "+" (Op2 "+" (Var "c") (Op2 "^" (Op2 "^" (Op2 "|" (Op2 ">>" (Var "h") (Num 6)) (Op2 "<<" (Var "h") (Num 26))) (Op2 "|" (Op2 ">>" (Var "h") (Num 11)) (Op2 "<<" (Var "h") (Num 21)))) (Op2 "|" (Op2 ">>" (Var "h") (Num 25)) (Op2 "<<" (Var "h") (Num 7))))) (Op2 "^" (Var "b") (Op2 "&" (Var "h") (Op2 "^" (Var "a") (Var "b"))))) (Num 3584528711)) (Var "w13"));
      Assign "t2_30" (Op2 "+" (Op2 "^" (Op2 "^" (Op2 "|" (Op2 ">>" (Var "d") (Num 2)) (Op2 "<<" (Var "d") (Num 30))) (Op2 "|" (Op2 ">>" (Var "d") (Num 13)) (Op2 "<<" (Var "d") (Num 19)))) (Op2 "|" (Op2 ">>" (Var "d") (Num 22)) (Op2 "<<" (Var "d") (Num 10)))) (Op2 "|" (Op2 "&" (Var "d") (Var "e")) (Op2 "&" (Var "f") (Op2 "|" (Var "d") (Var "e")))));
      Assign "g" (Op2 "+" (Var "g") (Var "t1_30"));
      Assign "c" (Op2 "+" (Var "t1_30") (Var "t2_30"));
      Assign "w14" (Op2 "+" (Var "w14") (Op2 "+" (Op2 "+" (Op2 "^" (Op2 "^" (Op2 "|" (Op2 ">>" (Var "w12") (Num 17)) (Op2 "<<" (Var "w12") (Num 15))) (Op2 "|" (Op2 ">>" (Var "w12") (Num 19)) (Op2 "<<" (Var "w12") (Num 13)))) (Op2 ">>" (Var "w12") (Num 10))) (Var "w7")) (Op2 "^" (Op2 "^" (Op2 "|" (Op2 ">>" (Var "w15") (Num 7)) (Op2 "<<" (Var "w15") (Num 25))) (Op2 "|" (Op2 ">>" (Var "w15") (Num 18)) (Op2 "<<" (Var "w15") (Num 14)))) (Op2 ">>" (Var "w15") (Num 3)))));
      Assign "t1_31" (Op2 "+" (Op2 "+" (Op2 "+" (Op2 "+" (Var "b") (Op2 "^" (Op2 "^" (Op2 "|" (Op2 ">>" (Var "g") (Num 6)) (Op2 "<<" (Var "g") (Num 26))) (Op2 "|" (Op2 ">>" (Var "g") (Num 11)) (Op2 "<<" (Var "g") (Num 21)))) (Op2 "|" (Op2 ">>" (Var "g") (Num 25)) (Op2 "<<" (Var "g") (Num 7))))) (Op2 "^" (Var "a") (Op2 "&" (Var "g") (Op2 "^" (Var "h") (Var "a"))))) (Num 113926993)) (Var "w14"));
      Assign "t2_31" (Op2 "+" (Op2 "^" (Op2 "^" (Op2 "|" (Op2 ">>" (Var "c") (Num 2)) (Op2 "<<" (Var "c") (Num 30))) (Op2 "|" (Op2 ">>" (Var "c") (Num 13)) (Op2 "<<" (Var "c") (Num 19)))) (Op2 "|" (Op2 ">>" (Var "c") (Num 22)) (Op2 "<<" (Var "c") (Num 10)))) (Op2 "|" (Op2 "&" (Var "c") (Var "d")) (Op2 "&" (Var "e") (Op2 "|" (Var "c") (Var "d")))));
      Assign "f" (Op2 "+" (Var "f") (Var "t1_31"));
      Assign "b" (Op2 "+" (Var "t1_31") (Var "t2_31"));
      Assign "w15" (Op2 "+" (Var "w15") (Op2 "+" (Op2 "+" (Op2 "^" (Op2 "^" (Op2 "|" (Op2 ">>" (Var "w13") (Num 17)) (Op2 "<<" (Var "w13") (Num 15))) (Op2 "|" (Op2 ">>" (Var "w13") (Num 19)) (Op2 "<<" (Var "w13") (Num 13)))) (Op2 ">>" (Var "w13") (Num 10))) (Var "w8")) (Op2 "^" (Op2 "^" (Op2 "|" (Op2 ">>" (Var "w0") (Num 7)) (Op2 "<<" (Var "w0") (Num 25))) (Op2 "|" (Op2 ">>" (Var "w0") (Num 18)) (Op2 "<<" (Var "w0") (Num 14)))) (Op2 ">>" (Var "w0") (Num 3)))));
      Assign "t1_32" (Op2 "+" (Op2 "+" (Op2 "+" (Op2 "+" (Var "a") (Op2 "^" (Op2 "^" (Op2 "|" (Op2 ">>" (Var "f") (Num 6)) (Op2 "<<" (Var "f") (Num 26))) (Op2 "|" (Op2 ">>" (Var "f") (Num 11)) (Op2 "<<" (Var "f") (Num 21)))) (Op2 "|" (Op2 ">>" (Var "f") (Num 25)) (Op2 "<<" (Var "f") (Num 7))))) (Op2 "^" (Var "h") (Op2 "&" (Var "f") (Op2 "^" (Var "g") (Var "h"))))) (Num 338241895)) (Var "w15"));
      Assign "t2_32" (Op2 "+" (Op2 "^" (Op2 "^" (Op2 "|" (Op2 ">>" (Var "b") (Num 2)) (Op2 "<<" (Var "b") (Num 30))) (Op2 "|" (Op2 ">>" (Var "b") (Num 13)) (Op2 "<<" (Var "b") (Num 19)))) (Op2 "|" (Op2 ">>" (Var "b") (Num 22)) (Op2 "<<" (Var "b") (Num 10)))) (Op2 "|" (Op2 "&" (Var "b") (Var "c")) (Op2 "&" (Var "d") (Op2 "|" (Var "b") (Var "c")))));
      Assign "e" (Op2 "+" (Var "e") (Var "t1_32"));
      Assign "a" (Op2 "+" (Var "t1_32") (Var "t2_32"));
      Assign "w0" (Op2 "+" (Var "w0") (Op2 "+" (Op2 "+" (Op2 "^" (Op2 "^" (Op2 "|" (Op2 ">>" (Var "w14") (Num 17)) (Op2 "<<" (Var "w14") (Num 15))) (Op2 "|" (Op2 ">>" (Var "w14") (Num 19)) (Op2 "<<" (Var "w14") (Num 13)))) (Op2 ">>" (Var "w14") (Num 10))) (Var "w9")) (Op2 "^" (Op2 "^" (Op2 "|" (Op2 ">>" (Var "w1") (Num 7)) (Op2 "<<" (Var "w1") (Num 25))) (Op2 "|" (Op2 ">>" (Var "w1") (Num 18)) (Op2 "<<" (Var "w1") (Num 14)))) (Op2 ">>" (Var "w1") (Num 3)))));
      Assign "t1_33" (Op2 "+" (Op2 "+" (Op2 "+" (Op2 "+" (Var "h") (Op2 "^" (Op2 "^" (Op2 "|" (Op2 ">>" (Var "e") (Num 6)) (Op2 "<<" (Var "e") (Num 26))) (Op2 "|" (Op2 ">>" (Var "e") (Num 11)) (Op2 "<<" (Var "e") (Num 21)))) (Op2 "|" (Op2 ">>" (Var "e") (Num 25)) (Op2 "<<" (Var "e") (Num 7))))) (Op2 "^" (Var "g") (Op2 "&" (Var "e") (Op2 "^" (Var "f") (Var "g"))))) (Num 666307205)) (Var "w0"));
      Assign "t2_33" (Op2 "+" (Op2 "^" (Op2 "^" (Op2 "|" (Op2 ">>" (Var "a") (Num 2)) (Op2 "<<" (Var "a") (Num 30))) (Op2 "|" (Op2 ">>" (Var "a") (Num 13)) (Op2 "<<" (Var "a") (Num 19)))) (Op2 "|" (Op2 ">>" (Var "a") (Num 22)) (Op2 "<<" (Var "a") (Num 10)))) (Op2 "|" (Op2 "&" (Var "a") (Var "b")) (Op2 "&" (Var "c") (Op2 "|" (Var "a") (Var "b")))));
      Assign "d" (Op2 "+" (Var "d") (Var "t1_33"));
      Assign "h" (Op2 "+" (Var "t1_33") (Var "t2_33"));
      Assign "w1" (Op2 "+" (Var "w1") (Op2 "+" (Op2 "+" (Op2 "^" (Op2 "^" (Op2 "|" (Op2 ">>" (Var "w15") (Num 17)) (Op2 "<<" (Var "w15") (Num 15))) (Op2 "|" (Op2 ">>" (Var "w15") (Num 19)) (Op2 "<<" (Var "w15") (Num 13)))) (Op2 ">>" (Var "w15") (Num 10))) (Var "w10")) (Op2 "^" (Op2 "^" (Op2 "|" (Op2 ">>" (Var "w2") (Num 7)) (Op2 "<<" (Var "w2") (Num 25))) (Op2 "|" (Op2 ">>" (Var "w2") (Num 18)) (Op2 "<<" (Var "w2") (Num 14)))) (Op2 ">>" (Var "w2") (Num 3)))));
      Assign "t1_34" (Op2 "+" (Op2 "+" (Op2 "+" (Op2 "+" (Var "g") (Op2 "^" (Op2 "^" (Op2 "|" (Op2 ">>" (Var "d") (Num 6)) (Op2 "<<" (Var "d") (Num 26))) (Op2 "|" (Op2 ">>" (Var "d") (Num 11)) (Op2 "<<" (Var "d") (Num 21)))) (Op2 "|" (Op2 ">>" (Var "d") (Num 25)) (Op2 "<<" (Var "d") (Num 7))))) (Op2 "^" (Var "f") (Op2 "&" (Var "d") (Op2 "^" (Var "e") (Var "f"))))) (Num 773529912)) (Var "w1"));
      Assign "t2_34" (Op2 "+" (Op2 "^" (Op2 "^" (Op2 "|" (Op2 ">>" (Var "h") (Num 2)) (Op2 "<<" (Var "h") (Num 30))) (Op2 "|" (Op2 ">>" (Var "h") (Num 13)) (Op2 "<<" (Var "h") (Num 19)))) (Op2 "|" (Op2 ">>" (Var "h") (Num 22)) (Op2 "<<" (Var "h") (Num 10)))) (Op2 "|" (Op2 "&" (Var "h") (Var "a")) (Op2 "&" (Var "b") (Op2 "|" (Var "h") (Var "a")))));
      Assign "c" (Op2 "+" (Var "c") (Var "t1_34"));
      Assign "g" (Op2 "+" (Var "t1_34") (Var "t2_34"));
      Assign "w2" (Op2 "+" (Var "w2") (Op2 "+" (Op2 "+" (Op2 "^" (Op2 "^" (Op2 "|" (Op2 ">>" (Var "w0") (Num 17)) (Op2 "<<" (Var "w0") (Num 15))) (Op2 "|" (Op2 ">>" (Var "w0") (Num 19)) (Op2 "<<" (Var "w0") (Num 13)))) (Op2 ">>" (Var "w0") (Num 10))) (Var "w11")) (Op2 "^" (Op2 "^" (Op2 "|" (Op2 ">>" (Var "w3") (Num 7)) (Op2 "<<" (Var "w3") (Num 25))) (Op2 "|" (Op2 ">>" (Var "w3") (Num 18)) (Op2 "<<" (Var "w3") (Num 14)))) (Op2 ">>" (Var "w3") (Num 3)))));
      Assign "t1_35" (Op2 "+" (Op2 "+" (Op2 "+" (Op2 "+" (Var "f") (Op2 "^" (Op2 "^" (Op2 "|" (Op2 ">>" (Var "c") (Num 6)) (Op2 "<<" (Var "c") (Num 26))) (Op2 "|" (Op2 ">>" (Var "c") (Num 11)) (Op2 "<<" (Var "c") (Num 21)))) (Op2 "|" (Op2 ">>" (Var "c") (Num 25)) (Op2 "<<" (Var "c") (Num 7))))) (Op2 "^" (Var "e") (Op2 "&" (Var "c") (Op2 "^" (Var "d") (Var "e"))))) (Num 1294757372)) (Var "w2"));
      Assign "t2_35" (Op2 "+" (Op2 "^" (Op2 "^" (Op2 "|" (Op2 ">>" (Var "g") (Num 2)) (Op2 "<<" (Var "g") (Num 30))) (Op2 "|" (Op2 ">>" (Var "g") (Num 13)) (Op2 "<<" (Var "g") (Num 19)))) (Op2 "|" (Op2 ">>" (Var "g") (Num 22)) (Op2 "<<" (Var "g") (Num 10)))) (Op2 "|" (Op2 "&" (Var "g") (Var "h")) (Op2 "&" (Var "a") (Op2 "|" (Var "g") (Var "h")))));
      Assign "b" (Op2 "+" (Var "b") (Var "t1_35"));
      Assign "f" (Op2 "+" (Var "t1_35") (Var "t2_35"));
      Assign "w3" (Op2 "+" (Var "w3") (Op2 "+" (Op2 "+" (Op2 "^" (Op2 "^" (Op2 "|" (Op2 ">>" (Var "w1") (Num 17)) (Op2 "<<" (Var "w1") (Num 15))) (Op2 "|" (Op2 ">>" (Var "w1") (Num 19)) (Op2 "<<" (Var "w1") (Num 13)))) (Op2 ">>" (Var "w1") (Num 10))) (Var "w12")) (Op2 "^" (Op2 "^" (Op2 "|" (Op2 ">>" (Var "w4") (Num 7)) (Op2 "<<" (Var "w4") (Num 25))) (Op2 "|" (Op2 ">>" (Var "w4") (Num 18)) (Op2 "<<" (Var "w4") (Num 14)))) (Op2 ">>" (Var "w4") (Num 3)))));
      Assign "t1_36" (Op2 "+" (Op2 "+" (Op2 "+" (Op2 "+" (Var "e") (Op2 "^" (Op2 "^" (Op2 "|" (Op2 ">>" (Var "b") (Num 6)) (Op2 "<<" (Var "b") (Num 26))) (Op2 "|" (Op2 ">>" (Var "b") (Num 11)) (Op2 "<<" (Var "b") (Num 21)))) (Op2 "|" (Op2 ">>" (Var "b") (Num 25)) (Op2 "<<" (Var "b") (Num 7))))) (Op2 "^" (Var "d") (Op2 "&" (Var "b") (Op2 "^" (Var "c") (Var "d"))))) (Num 1396182291)) (Var "w3"));
      Assign "t2_36" (Op2 "+" (Op2 "^" (Op2 "^" (Op2 "|" (Op2 ">>" (Var "f") (Num 2)) (Op2 "<<" (Var "f") (Num 30))) (Op2 "|" (Op2 ">>" (Var "f") (Num 13)) (Op2 "<<" (Var "f") (Num 19)))) (Op2 "|" (Op2 ">>" (Var "f") (Num 22)) (Op2 "<<" (Var "f") (Num 10)))) (Op2 "|" (Op2 "&" (Var "f") (Var "g")) (Op2 "&" (Var "h") (Op2 "|" (Var "f") (Var "g")))));
      Assign "a" (Op2 "+" (Var "a") (Var "t1_36"));
      Assign "e" (Op2 "+" (Var "t1_36") (Var "t2_36"));
      Assign "w4" (Op2 "+" (Var "w4") (Op2 "+" (Op2 "+" (Op2 "^" (Op2 "^" (Op2 "|" (Op2 ">>" (Var "w2") (Num 17)) (Op2 "<<" (Var "w2") (Num 15))) (Op2 "|" (Op2 ">>" (Var "w2") (Num 19)) (Op2 "<<" (Var "w2") (Num 13)))) (Op2 ">>" (Var "w2") (Num 10))) (Var "w13")) (Op2 "^" (Op2 "^" (Op2 "|" (Op2 ">>" (Var "w5") (Num 7)) (Op2 "<<" (Var "w5") (Num 25))) (Op2 "|" (Op2 ">>" (Var "w5") (Num 18)) (Op2 "<<" (Var "w5") (Num 14)))) (Op2 ">>" (Var "w5") (Num 3)))));
      Assign "t1_37" (Op2 "+" (Op2 "+" (Op2 "+" (Op2 "+" (Var "d") (Op2 "^" (Op2 "^" (Op2 "|" (Op2 ">>" (Var "a") (Num 6)) (Op2 "<<" (Var "a") (Num 26))) (Op2 "|" (Op2 ">>" (Var "a") (Num 11)) (Op2 "<<" (Var "a") (Num 21)))) (Op2 "|" (Op2 ">>" (Var "a") (Num 25)) (Op2 "<<" (Var "a") (Num 7))))) (Op2 "^" (Var "c") (Op2 "&" (Var "a") (Op2 "^" (Var "b") (Var "c"))))) (Num 1695183700)) (Var "w4"));
      Assign "t2_37" (Op2 "+" (Op2 "^" (Op2 "^" (Op2 "|" (Op2 ">>" (Var "e") (Num 2)) (Op2 "<<" (Var "e") (Num 30))) (Op2 "|" (Op2 ">>" (Var "e") (Num 13)) (Op2 "<<" (Var "e") (Num 19)))) (Op2 "|" (Op2 ">>" (Var "e") (Num 22)) (Op2 "<<" (Var "e") (Num 10)))) (Op2 "|" (Op2 "&" (Var "e") (Var "f")) (Op2 "&" (Var "g") (Op2 "|" (Var "e") (Var "f")))));
      Assign "h" (Op2 "+" (Var "h") (Var "t1_37"));
      Assign "d" (Op2 "+" (Var "t1_37") (Var "t2_37"));
      Assign "w5" (Op2 "+" (Var "w5") (Op2 "+" (Op2 "+" (Op2 "^" (Op2 "^" (Op2 "|" (Op2 ">>" (Var "w3") (Num 17)) (Op2 "<<" (Var "w3") (Num 15))) (Op2 "|" (Op2 ">>" (Var "w3") (Num 19)) (Op2 "<<" (Var "w3") (Num 13)))) (Op2 ">>" (Var "w3") (Num 10))) (Var "w14")) (Op2 "^" (Op2 "^" (Op2 "|" (Op2 ">>" (Var "w6") (Num 7)) (Op2 "<<" (Var "w6") (Num 25))) (Op2 "|" (Op2 ">>" (Var "w6") (Num 18)) (Op2 "<<" (Var "w6") (Num 14)))) (Op2 ">>" (Var "w6") (Num 3)))));
      Assign "t1_38" (Op2 "+" (Op2 "+" (Op2 "+" (Op2 "+" (Var "c") (Op2 "^" (Op2 "^" (Op2 "|" (Op2 ">>" (Var "h") (Num 6)) (Op2 "<<" (Var "h") (Num 26))) (Op2 "|" (Op2 ">>" (Var "h") (Num 11)) (Op2 "<<" (Var "h") (Num 21)))) (Op2 "|" (Op2 ">>" (Var "h") (Num 25)) (Op2 "<<" (Var "h") (Num 7))))) (Op2 "^" (Var "b") (Op2 "&" (Var "h") (Op2 "^" (Var "a") (Var "b"))))) (Num 1986661051)) (Var "w5"));
      Assign "t2_38" (Op2 "+" (Op2 "^" (Op2 "^" (Op2 "|" (Op2 ">>" (Var "d") (Num 2)) (Op2 "<<" (Var "d") (Num 30))) (Op2 "|" (Op2 ">>" (Var "d") (Num 13)) (Op2 "<<" (Var "d") (Num 19)))) (Op2 "|" (Op2 ">>" (Var "d") (Num 22)) (Op2 "<<" (Var "d") (Num 10)))) (Op2 "|" (Op2 "&" (Var "d") (Var "e")) (Op2 "&" (Var "f") (Op2 "|" (Var "d") (Var "e")))));
      Assign "g" (Op2 "+" (Var "g") (Var "t1_38"));
      Assign "c" (Op2 "+" (Var "t1_38") (Var "t2_38"));
      Assign "w6" (Op2 "+" (Var "w6") (Op2 "+" (Op2 "+" (Op2 "^" (Op2 "^" (Op2 "|" (Op2 ">>" (Var "w4") (Num 17)) (Op2 "<<" (Var "w4") (Num 15))) (Op2 "|" (Op2 ">>" (Var "w4") (Num 19)) (Op2 "<<" (Var "w4") (Num 13)))) (Op2 ">>" (Var "w4") (Num 10))) (Var "w15")) (Op2 "^" (Op2 "^" (Op2 "|" (Op2 ">>" (Var "w7") (Num 7)) (Op2 "<<" (Var "w7") (Num 25))) (Op2 "|" (Op2 ">>" (Var "w7") (Num 18)) (Op2 "<<" (Var "w7") (Num 14)))) (Op2 ">>" (Var "w7") (Num 3)))));
      Assign "t1_39" (Op2 "+" (Op2 "+" (Op2 "+" (Op2 "+" (Var "b") (Op2 "^" (Op2 "^" (Op2 "|" (Op2 ">>" (Var "g") (Num 6)) (Op2 "<<" (Var "g") (Num 26))) (Op2 "|" (Op2 ">>" (Var "g") (Num 11)) (Op2 "<<" (Var "g") (Num 21)))) (Op2 "|" (Op2 ">>" (Var "g") (Num 25)) (Op2 "<<" (Var "g") (Num 7))))) (Op2 "^" (Var "a") (Op2 "&" (Var "g") (Op2 "^" (Var "h") (Var "a"))))) (Num 2177026350)) (Var "w6"));
      Assign "t2_39" (Op2 "+" (Op2 "^" (Op2 "^" (Op2 "|" (Op2 ">>" (Var "c") (Num 2)) (Op2 "<<" (Var "c") (Num 30))) (Op2 "|" (Op2 ">>" (Var "c") (Num 13)) (Op2 "<<" (Var "c") (Num 19)))) (Op2 "|" (Op2 ">>" (Var "c") (Num 22)) (Op2 "<<" (Var "c") (Num 10)))) (Op2 "|" (Op2 "&" (Var "c") (Var "d")) (Op2 "&" (Var "e") (Op2 "|" (Var "c") (Var "d")))));
      Assign "f" (Op2 "+" (Var "f") (Var "t1_39"));
      Assign "b" (Op2 "+" (Var "t1_39") (Var "t2_39"));
      Assign "w7" (Op2 "+" (Var "w7") (Op2 "+" (Op2 "+" (Op2 "^" (Op2 "^" (Op2 "|" (Op2 ">>" (Var "w5") (Num 17)) (Op2 "<<" (Var "w5") (Num 15))) (Op2 "|" (Op2 ">>" (Var "w5") (Num 19)) (Op2 "<<" (Var "w5") (Num 13)))) (Op2 ">>" (Var "w5") (Num 10))) (Var "w0")) (Op2 "^" (Op2 "^" (Op2 "|" (Op2 ">>" (Var "w8") (Num 7)) (Op2 "<<" (Var "w8") (Num 25))) (Op2 "|" (Op2 ">>" (Var "w8") (Num 18)) (Op2 "<<" (Var "w8") (Num 14)))) (Op2 ">>" (Var "w8") (Num 3)))));
      Assign "t1_40" (Op2 "+" (Op2 "+" (Op2 "+" (Op2 "+" (Var "a") (Op2 "^" (Op2 "^" (Op2 "|" (Op2 ">>" (Var "f") (Num 6)) (Op2 "<<" (Var "f") (Num 26))) (Op2 "|" (Op2 ">>" (Var "f") (Num 11)) (Op2 "<<" (Var "f") (Num 21)))) (Op2 "|" (Op2 ">>" (Var "f") (Num 25)) (Op2 "<<" (Var "f") (Num 7))))) (Op2 "^" (Var "h") (Op2 "&" (Var "f") (Op2 "^" (Var "g") (Var "h"))))) (Num 2456956037)) (Var "w7"));
      Assign "t2_40" (Op2 "+" (Op2 "^" (Op2 "^" (Op2 "|" (Op2 ">>" (Var "b") (Num 2)) (Op2 "<<" (Var "b") (Num 30))) (Op2 "|" (Op2 ">>" (Var "b") (Num 13)) (Op2 "<<" (Var "b") (Num 19)))) (Op2 "|" (Op2 ">>" (Var "b") (Num 22)) (Op2 "<<" (Var "b") (Num 10)))) (Op2 "|" (Op2 "&" (Var "b") (Var "c")) (Op2 "&" (Var "d") (Op2 "|" (Var "b") (Var "c")))));
      Assign "e" (Op2 "+" (Var "e") (Var "t1_40"));
      Assign "a" (Op2 "+" (Var "t1_40") (Var "t2_40"));
      Assign "w8" (Op2 "+" (Var "w8") (Op2 "+" (Op2 "+" (Op2 "^" (Op2 "^" (Op2 "|" (Op2 ">>" (Var "w6") (Num 17)) (Op2 "<<" (Var "w6") (Num 15))) (Op2 "|" (Op2 ">>" (Var "w6") (Num 19)) (Op2 "<<" (Var "w6") (Num 13)))) (Op2 ">>" (Var "w6") (Num 10))) (Var "w1")) (Op2 "^" (Op2 "^" (Op2 "|" (Op2 ">>" (Var "w9") (Num 7)) (Op2 "<<" (Var "w9") (Num 25))) (Op2 "|" (Op2 ">>" (Var "w9") (Num 18)) (Op2 "<<" (Var "w9") (Num 14)))) (Op2 ">>" (Var "w9") (Num 3)))));
      Assign "t1_41" (Op2 "+" (Op2 "+" (Op2 "+" (Op2 "+" (Var "h") (Op2 "^" (Op2 "^" (Op2 "|" (Op2 ">>" (Var "e") (Num 6)) (Op2 "<<" (Var "e") (Num 26))) (Op2 "|" (Op2 ">>" (Var "e") (Num 11)) (Op2 "<<" (Var "e") (Num 21)))) (Op2 "|" (Op2 ">>" (Var "e") (Num 25)) (Op2 "<<" (Var "e") (Num 7))))) (Op2 "^" (Var "g") (Op2 "&" (Var "e") (Op2 "^" (Var "f") (Var "g"))))) (Num 2730485921)) (Var "w8"));
      Assign "t2_41" (Op2 "+" (Op2 "^" (Op2 "^" (Op2 "|" (Op2 ">>" (Var "a") (Num 2)) (Op2 "<<" (Var "a") (Num 30))) (Op2 "|" (Op2 ">>" (Var "a") (Num 13)) (Op2 "<<" (Var "a") (Num 19)))) (Op2 "|" (Op2 ">>" (Var "a") (Num 22)) (Op2 "<<" (Var "a") (Num 10)))) (Op2 "|" (Op2 "&" (Var "a") (Var "b")) (Op2 "&" (Var "c") (Op2 "|" (Var "a") (Var "b")))));
      Assign "d" (Op2 "+" (Var "d") (Var "t1_41"));
      Assign "h" (Op2 "+" (Var "t1_41") (Var "t2_41"));
      Assign "w9" (Op2 "+" (Var "w9") (Op2 "+" (Op2 "+" (Op2 "^" (Op2 "^" (Op2 "|" (Op2 ">>" (Var "w7") (Num 17)) (Op2 "<<" (Var "w7") (Num 15))) (Op2 "|" (Op2 ">>" (Var "w7") (Num 19)) (Op2 "<<" (Var "w7") (Num 13)))) (Op2 ">>" (Var "w7") (Num 10))) (Var "w2")) (Op2 "^" (Op2 "^" (Op2 "|" (Op2 ">>" (Var "w10") (Num 7)) (Op2 "<<" (Var "w10") (Num 25))) (Op2 "|" (Op2 ">>" (Var "w10") (Num 18)) (Op2 "<<" (Var "w10") (Num 14)))) (Op2 ">>" (Var "w10") (Num 3)))));
      Assign "t1_42" (Op2 "+" (Op2 "+" (Op2 "+" (Op2 "+" (Var "g") (Op2 "^" (Op2 "^" (Op2 "|" (Op2 ">>" (Var "d") (Num 6)) (Op2 "<<" (Var "d") (Num 26))) (Op2 "|" (Op2 ">>" (Var "d") (Num 11)) (Op2 "<<" (Var "d") (Num 21)))) (Op2 "|" (Op2 ">>" (Var "d") (Num 25)) (Op2 "<<" (Var "d") (Num 7))))) (Op2 "^" (Var "f") (Op2 "&" (Var "d") (Op2 "^" (Var "e") (Var "f"))))) (Num 2820302411)) (Var "w9"));
      Assign "t2_42" (Op2 "+" (Op2 "^" (Op2 "^" (Op2 "|" (Op2 ">>" (Var "h") (Num 2)) (Op2 "<<" (Var "h") (Num 30))) (Op2 "|" (Op2 ">>" (Var "h") (Num 13)) (Op2 "<<" (Var "h") (Num 19)))) (Op2 "|" (Op2 ">>" (Var "h") (Num 22)) (Op2 "<<" (Var "h") (Num 10)))) (Op2 "|" (Op2 "&" (Var "h") (Var "a")) (Op2 "&" (Var "b") (Op2 "|" (Var "h") (Var "a")))));
      Assign "c" (Op2 "+" (Var "c") (Var "t1_42"));
      Assign "g" (Op2 "+" (Var "t1_42") (Var "t2_42"));
      Assign "w10" (Op2 "+" (Var "w10") (Op2 "+" (Op2 "+" (Op2 "^" (Op2 "^" (Op2 "|" (Op2 ">>" (Var "w8") (Num 17)) (Op2 "<<" (Var "w8") (Num 15))) (Op2 "|" (Op2 ">>" (Var "w8") (Num 19)) (Op2 "<<" (Var "w8") (Num 13)))) (Op2 ">>" (Var "w8") (Num 10))) (Var "w3")) (Op2 "^" (Op2 "^" (Op2 "|" (Op2 ">>" (Var "w11") (Num 7)) (Op2 "<<" (Var "w11") (Num 25))) (Op2 "|" (Op2 ">>" (Var "w11") (Num 18)) (Op2 "<<" (Var "w11") (Num 14)))) (Op2 ">>" (Var "w11") (Num 3)))));
      Assign "t1_43" (Op2 "+" (Op2 "+" (Op2 "+" (Op2 "+" (Var "f") (Op2 "^" (Op2 "^" (Op2 "|" (Op2 ">>" (Var "c") (Num 6)) (Op2 "<<" (Var "c") (Num 26))) (Op2 "|" (Op2 ">>" (Var "c") (Num 11)) (Op2 "<<" (Var "c") (Num 21)))) (Op2 "|" (Op2 ">>" (Var "c") (Num 25)) (Op2 "<<" (Var "c") (Num 7))))) (Op2 "^" (Var "e") (Op2 "&" (Var "c") (Op2 "^" (Var "d") (Var "e"))))) (Num 3259730800)) (Var "w10"));
      Assign "t2_43" (Op2 "+" (Op2 "^" (Op2 "^" (Op2 "|" (Op2 ">>" (Var "g") (Num 2)) (Op2 "<<" (Var "g") (Num 30))) (Op2 "|" (Op2 ">>" (Var "g") (Num 13)) (Op2 "<<" (Var "g") (Num 19)))) (Op2 "|" (Op2 ">>" (Var "g") (Num 22)) (Op2 "<<" (Var "g") (Num 10)))) (Op2 "|" (Op2 "&" (Var "g") (Var "h")) (Op2 "&" (Var "a") (Op2 "|" (Var "g") (Var "h")))));
      Assign "b" (Op2 "+" (Var "b") (Var "t1_43"));
      Assign "f" (Op2 "+" (Var "t1_43") (Var "t2_43"));
      Assign "w11" (Op2 "+" (Var "w11") (Op2 "+" (Op2 "+" (Op2 "^" (Op2 "^" (Op2 "|" (Op2 ">>" (Var "w9") (Num 17)) (Op2 "<<" (Var "w9") (Num 15))) (Op2 "|" (Op2 ">>" (Var "w9") (Num 19)) (Op2 "<<" (Var "w9") (Num 13)))) (Op2 ">>" (Var "w9") (Num 10))) (Var "w4")) (Op2 "^" (Op2 "^" (Op2 "|" (Op2 ">>" (Var "w12") (Num 7)) (Op2 "<<" (Var "w12") (Num 25))) (Op2 "|" (Op2 ">>" (Var "w12") (Num 18)) (Op2 "<<" (Var "w12") (Num 14)))) (Op2 ">>" (Var "w12") (Num 3)))));
      Assign "t1_44" (Op2 "+" (Op2 "+" (Op2 "+" (Op2 "+" (Var "e") (Op2 "^" (Op2 "^" (Op2 "|" (Op2 ">>" (Var "b") (Num 6)) (Op2 "<<" (Var "b") (Num 26))) (Op2 "|" (Op2 ">>" (Var "b") (Num 11)) (Op2 "<<" (Var "b") (Num 21)))) (Op2 "|" (Op2 ">>" (Var "b") (Num 25)) (Op2 "<<" (Var "b") (Num 7))))) (Op2 "^" (Var "d") (Op2 "&" (Var "b") (Op2 "^" (Var "c") (Var "d"))))) (Num 3345764771)) (Var "w11"));
      Assign "t2_44" (Op2 "+" (Op2 "^" (Op2 "^" (Op2 "|" (Op2 ">>" (Var "f") (Num 2)) (Op2 "<<" (Var "f") (Num 30))) (Op2 "|" (Op2 ">>" (Var "f") (Num 13)) (Op2 "<<" (Var "f") (Num 19)))) (Op2 "|" (Op2 ">>" (Var "f") (Num 22)) (Op2 "<<" (Var "f") (Num 10)))) (Op2 "|" (Op2 "&" (Var "f") (Var "g")) (Op2 "&" (Var "h") (Op2 "|" (Var "f") (Var "g")))));
      Assign "a" (Op2 "+" (Var "a") (Var "t1_44"));
      Assign "e" (Op2 "+" (Var "t1_44") (Var "t2_44"));
      Assign "w12" (Op2 "+" (Var "w12") (Op2 "+" (Op2 "+" (Op2 "^" (Op2 "^" (Op2 "|" (Op2 ">>" (Var "w10") (Num 17)) (Op2 "<<" (Var "w10") (Num 15))) (Op2 "|" (Op2 ">>" (Var "w10") (Num 19)) (Op2 "<<" (Var "w10") (Num 13)))) (Op2 ">>" (Var "w10") (Num 10))) (Var "w5")) (Op2 "^" (Op2 "^" (Op2 "|" (Op2 ">>" (Var "w13") (Num 7)) (Op2 "<<" (Var "w13") (Num 25))) (Op2 "|" (Op2 ">>" (Var "w13") (Num 18)) (Op2 "<<" (Var "w13") (Num 14)))) (Op2 ">>" (Var "w13") (Num 3)))));
      Assign "t1_45" (Op2 "+" (Op2 "+" (Op2 "+" (Op2 "+" (Var "d") (Op2 "^" (Op2 "^" (Op2 "|" (Op2 ">>" (Var "a") (Num 6)) (Op2 "<<" (Var "a") (Num 26))) (Op2 "|" (Op2 ">>" (Var "a") (Num 11)) (Op2 "<<" (Var "a") (Num 21)))) (Op2 "|" (Op2 ">>" (Var "a") (Num 25)) (Op2 "<<" (Var "a") (Num 7))))) (Op2 "^" (Var "c") (Op2 "&" (Var "a") (Op2 "^" (Var "b") (Var "c"))))) (Num 3516065817)) (Var "w12"));
      Assign "t2_45" (Op2 "+" (Op2 "^" (Op2 "^" (Op2 "|" (Op2 ">>" (Var "e") (Num 2)) (Op2 "<<" (Var "e") (Num 30))) (Op2 "|" (Op2 ">>" (Var "e") (Num 13)) (Op2 "<<" (Var "e") (Num 19)))) (Op2 "|" (Op2 ">>" (Var "e") (Num 22)) (Op2 "<<" (Var "e") (Num 10)))) (Op2 "|" (Op2 "&" (Var "e") (Var "f")) (Op2 "&" (Var "g") (Op2 "|" (Var "e") (Var "f")))));
      Assign "h" (Op2 "+" (Var "h") (Var "t1_45"));
      Assign "d" (Op2 "+" (Var "t1_45") (Var "t2_45"));
      Assign "w13" (Op2 "+" (Var "w13") (Op2 "+" (Op2 "+" (Op2 "^" (Op2 "^" (Op2 "|" (Op2 ">>" (Var "w11") (Num 17)) (Op2 "<<" (Var "w11") (Num 15))) (Op2 "|" (Op2 ">>" (Var "w11") (Num 19)) (Op2 "<<" (Var "w11") (Num 13)))) (Op2 ">>" (Var "w11") (Num 10))) (Var "w6")) (Op2 "^" (Op2 "^" (Op2 "|" (Op2 ">>" (Var "w14") (Num 7)) (Op2 "<<" (Var "w14") (Num 25))) (Op2 "|" (Op2 ">>" (Var "w14") (Num 18)) (Op2 "<<" (Var "w14") (Num 14)))) (Op2 ">>" (Var "w14") (Num 3)))));
      Assign "t1_46" (Op2 "+" (Op2 "+" (Op2 "+" (Op2 "+" (Var "c") (Op2 "^" (Op2 "^" (Op2 "|" (Op2 ">>" (Var "h") (Num 6)) (Op2 "<<" (Var "h") (Num 26))) (Op2 "|" (Op2 ">>" (Var "h") (Num 11)) (Op2 "<<" (Var "h") (Num 21)))) (Op2 "|" (Op2 ">>" (Var "h") (Num 25)) (Op2 "<<" (Var "h") (Num 7))))) (Op2 "^" (Var "b") (Op2 "&" (Var "h") (Op2 "^" (Var "a") (Var "b"))))) (Num 3600352804)) (Var "w13"));
      Assign "t2_46" (Op2 "+" (Op2 "^" (Op2 "^" (Op2 "|" (Op2 ">>" (Var "d") (Num 2)) (Op2 "<<" (Var "d") (Num 30))) (Op2 "|" (Op2 ">>" (Var "d") (Num 13)) (Op2 "<<" (Var "d") (Num 19)))) (Op2 "|" (Op2 ">>" (Var "d") (Num 22)) (Op2 "<<" (Var "d") (Num 10)))) (Op2 "|" (Op2 "&" (Var "d") (Var "e")) (Op2 "&" (Var "f") (Op2 "|" (Var "d") (Var "e")))));
      Assign "g" (Op2 "+" (Var "g") (Var "t1_46"));
      Assign "c" (Op2 "+" (Var "t1_46") (Var "t2_46"));
      Assign "w14" (Op2 "+" (Var "w14") (Op2 "+" (Op2 "+" (Op2 "^" (Op2 "^" (Op2 "|" (Op2 ">>" (Var "w12") (Num 17)) (Op2 "<<" (Var "w12") (Num 15))) (Op2 "|" (Op2 ">>" (Var "w12") (Num 19)) (Op2 "<<" (Var "w12") (Num 13)))) (Op2 ">>" (Var "w12") (Num 10))) (Var "w7")) (Op2 "^" (Op2 "^" (Op2 "|" (Op2 ">>" (Var "w15") (Num 7)) (Op2 "<<" (Var "w15") (Num 25))) (Op2 "|" (Op2 ">>" (Var "w15") (Num 18)) (Op2 "<<" (Var "w15") (Num 14)))) (Op2 ">>" (Var "w15") (Num 3)))));
      Assign "t1_47" (Op2 "+" (Op2 "+" (Op2 "+" (Op2 "+" (Var "b") (Op2 "^" (Op2 "^" (Op2 "|" (Op2 ">>" (Var "g") (Num 6)) (Op2 "<<" (Var "g") (Num 26))) (Op2 "|" (Op2 ">>" (Var "g") (Num 11)) (Op2 "<<" (Var "g") (Num 21)))) (Op2 "|" (Op2 ">>" (Var "g") (Num 25)) (Op2 "<<" (Var "g") (Num 7))))) (Op2 "^" (Var "a") (Op2 "&" (Var "g") (Op2 "^" (Var "h") (Var "a"))))) (Num 4094571909)) (Var "w14"));
      Assign "t2_47" (Op2 "+" (Op2 "^" (Op2 "^" (Op2 "|" (Op2 ">>" (Var "c") (Num 2)) (Op2 "<<" (Var "c") (Num 30))) (Op2 "|" (Op2 ">>" (Var "c") (Num 13)) (Op2 "<<" (Var "c") (Num 19)))) (Op2 "|" (Op2 ">>" (Var "c") (Num 22)) (Op2 "<<" (Var "c") (Num 10)))) (Op2 "|" (Op2 "&" (Var "c") (Var "d")) (Op2 "&" (Var "e") (Op2 "|" (Var "c") (Var "d")))));
      Assign "f" (Op2 "+" (Var "f") (Var "t1_47"));
      Assign "b" (Op2 "+" (Var "t1_47") (Var "t2_47"));
      Assign "w15" (Op2 "+" (Var "w15") (Op2 "+" (Op2 "+" (Op2 "^" (Op2 "^" (Op2 "|" (Op2 ">>" (Var "w13") (Num 17)) (Op2 "<<" (Var "w13") (Num 15))) (Op2 "|" (Op2 ">>" (Var "w13") (Num 19)) (Op2 "<<" (Var "w13") (Num 13)))) (Op2 ">>" (Var "w13") (Num 10))) (Var "w8")) (Op2 "^" (Op2 "^" (Op2 "|" (Op2 ">>" (Var "w0") (Num 7)) (Op2 "<<" (Var "w0") (Num 25))) (Op2 "|" (Op2 ">>" (Var "w0") (Num 18)) (Op2 "<<" (Var "w0") (Num 14)))) (Op2 ">>" (Var "w0") (Num 3)))));
      Assign "t1_48" (Op2 "+" (Op2 "+" (Op2 "+" (Op2 "+" (Var "a") (Op2 "^" (Op2 "^" (Op2 "|" (Op2 ">>" (Var "f") (Num 6)) (Op2 "<<" (Var "f") (Num 26))) (Op2 "|" (Op2 ">>" (Var "f") (Num 11)) (Op2 "<<" (Var "f") (Num 21)))) (Op2 "|" (Op2 ">>" (Var "f") (Num 25)) (Op2 "<<" (Var "f") (Num 7))))) (Op2 "^" (Var "h") (Op2 "&" (Var "f") (Op2 "^" (Var "g") (Var "h"))))) (Num 275423344)) (Var "w15"));
      Assign "t2_48" (Op2 "+" (Op2 "^" (Op2 "^" (Op2 "|" (Op2 ">>" (Var "b") (Num 2)) (Op2 "<<" (Var "b") (Num 30))) (Op2 "|" (Op2 ">>" (Var "b") (Num 13)) (Op2 "<<" (Var "b") (Num 19)))) (Op2 "|" (Op2 ">>" (Var "b") (Num 22)) (Op2 "<<" (Var "b") (Num 10)))) (Op2 "|" (Op2 "&" (Var "b") (Var "c")) (Op2 "&" (Var "d") (Op2 "|" (Var "b") (Var "c")))));
      Assign "e" (Op2 "+" (Var "e") (Var "t1_48"));
      Assign "a" (Op2 "+" (Var "t1_48") (Var "t2_48"));
      Assign "w0" (Op2 "+" (Var "w0") (Op2 "+" (Op2 "+" (Op2 "^" (Op2 "^" (Op2 "|" (Op2 ">>" (Var "w14") (Num 17)) (Op2 "<<" (Var "w14") (Num 15))) (Op2 "|" (Op2 ">>" (Var "w14") (Num 19)) (Op2 "<<" (Var "w14") (Num 13)))) (Op2 ">>" (Var "w14") (Num 10))) (Var "w9")) (Op2 "^" (Op2 "^" (Op2 "|" (Op2 ">>" (Var "w1") (Num 7)) (Op2 "<<" (Var "w1") (Num 25))) (Op2 "|" (Op2 ">>" (Var "w1") (Num 18)) (Op2 "<<" (Var "w1") (Num 14)))) (Op2 ">>" (Var "w1") (Num 3)))));
      Assign "t1_49" (Op2 "+" (Op2 "+" (Op2 "+" (Op2 "+" (Var "h") (Op2 "^" (Op2 "^" (Op2 "|" (Op2 ">>" (Var "e") (Num 6)) (Op2 "<<" (Var "e") (Num 26))) (Op2 "|" (Op2 ">>" (Var "e") (Num 11)) (Op2 "<<" (Var "e") (Num 21)))) (Op2 "|" (Op2 ">>" (Var "e") (Num 25)) (Op2 "<<" (Var "e") (Num 7))))) (Op2 "^" (Var "g") (Op2 "&" (Var "e") (Op2 "^" (Var "f") (Var "g"))))) (Num 430227734)) (Var "w0"));
      Assign "t2_49" (Op2 "+" (Op2 "^" (Op2 "^" (Op2 "|" (Op2 ">>" (Var "a") (Num 2)) (Op2 "<<" (Var "a") (Num 30))) (Op2 "|" (Op2 ">>" (Var "a") (Num 13)) (Op2 "<<" (Var "a") (Num 19)))) (Op2 "|" (Op2 ">>" (Var "a") (Num 22)) (Op2 "<<" (Var "a") (Num 10)))) (Op2 "|" (Op2 "&" (Var "a") (Var "b")) (Op2 "&" (Var "c") (Op2 "|" (Var "a") (Var "b")))));
      Assign "d" (Op2 "+" (Var "d") (Var "t1_49"));
      Assign "h" (Op2 "+" (Var "t1_49") (Var "t2_49"));
      Assign "w1" (Op2 "+" (Var "w1") (Op2 "+" (Op2 "+" (Op2 "^" (Op2 "^" (Op2 "|" (Op2 ">>" (Var "w15") (Num 17)) (Op2 "<<" (Var "w15") (Num 15))) (Op2 "|" (Op2 ">>" (Var "w15") (Num 19)) (Op2 "<<" (Var "w15") (Num 13)))) (Op2 ">>" (Var "w15") (Num 10))) (Var "w10")) (Op2 "^" (Op2 "^" (Op2 "|" (Op2 ">>" (Var "w2") (Num 7)) (Op2 "<<" (Var "w2") (Num 25))) (Op2 "|" (Op2 ">>" (Var "w2") (Num 18)) (Op2 "<<" (Var "w2") (Num 14)))) (Op2 ">>" (Var "w2") (Num 3)))));
      Assign "t1_50" (Op2 "+" (Op2 "+" (Op2 "+" (Op2 "+" (Var "g") (Op2 "^" (Op2 "^" (Op2 "|" (Op2 ">>" (Var "d") (Num 6)) (Op2 "<<" (Var "d") (Num 26))) (Op2 "|" (Op2 ">>" (Var "d") (Num 11)) (Op2 "<<" (Var "d") (Num 21)))) (Op2 "|" (Op2 ">>" (Var "d") (Num 25)) (Op2 "<<" (Var "d") (Num 7))))) (Op2 "^" (Var "f") (Op2 "&" (Var "d") (Op2 "^" (Var "e") (Var "f"))))) (Num 506948616)) (Var "w1"));
      Assign "t2_50" (Op2 "+" (Op2 "^" (Op2 "^" (Op2 "|" (Op2 ">>" (Var "h") (Num 2)) (Op2 "<<" (Var "h") (Num 30))) (Op2 "|" (Op2 ">>" (Var "h") (Num 13)) (Op2 "<<" (Var "h") (Num 19)))) (Op2 "|" (Op2 ">>" (Var "h") (Num 22)) (Op2 "<<" (Var "h") (Num 10)))) (Op2 "|" (Op2 "&" (Var "h") (Var "a")) (Op2 "&" (Var "b") (Op2 "|" (Var "h") (Var "a")))));
      Assign "c" (Op2 "+" (Var "c") (Var "t1_50"));
      Assign "g" (Op2 "+" (Var "t1_50") (Var "t2_50"));
      Assign "w2" (Op2 "+" (Var "w2") (Op2 "+" (Op2 "+" (Op2 "^" (Op2 "^" (Op2 "|" (Op2 ">>" (Var "w0") (Num 17)) (Op2 "<<" (Var "w0") (Num 15))) (Op2 "|" (Op2 ">>" (Var "w0") (Num 19)) (Op2 "<<" (Var "w0") (Num 13)))) (Op2 ">>" (Var "w0") (Num 10))) (Var "w11")) (Op2 "^" (Op2 "^" (Op2 "|" (Op2 ">>" (Var "w3") (Num 7)) (Op2 "<<" (Var "w3") (Num 25))) (Op2 "|" (Op2 ">>" (Var "w3") (Num 18)) (Op2 "<<" (Var "w3") (Num 14)))) (Op2 ">>" (Var "w3") (Num 3)))));
      Assign "t1_51" (Op2 "+" (Op2 "+" (Op2 "+" (Op2 "+" (Var "f") (Op2 "^" (Op2 "^" (Op2 "|" (Op2 ">>" (Var "c") (Num 6)) (Op2 "<<" (Var "c") (Num 26))) (Op2 "|" (Op2 ">>" (Var "c") (Num 11)) (Op2 "<<" (Var "c") (Num 21)))) (Op2 "|" (Op2 ">>" (Var "c") (Num 25)) (Op2 "<<" (Var "c") (Num 7))))) (Op2 "^" (Var "e") (Op2 "&" (Var "c") (Op2 "^" (Var "d") (Var "e"))))) (Num 659060556)) (Var "w2"));
      Assign "t2_51" (Op2 "+" (Op2 "^" (Op2 "^" (Op2 "|" (Op2 ">>" (Var "g") (Num 2)) (Op2 "<<" (Var "g") (Num 30))) (Op2 "|" (Op2 ">>" (Var "g") (Num 13)) (Op2 "<<" (Var "g") (Num 19)))) (Op2 "|" (Op2 ">>" (Var "g") (Num 22)) (Op2 "<<" (Var "g") (Num 10)))) (Op2 "|" (Op2 "&" (Var "g") (Var "h")) (Op2 "&" (Var "a") (Op2 "|" (Var "g") (Var "h")))));
      Assign "b" (Op2 "+" (Var "b") (Var "t1_51"));
      Assign "f" (Op2 "+" (Var "t1_51") (Var "t2_51"));
      Assign "w3" (Op2 "+" (Var "w3") (Op2 "+" (Op2 "+" (Op2 "^" (Op2 "^" (Op2 "|" (Op2 ">>" (Var "w1") (Num 17)) (Op2 "<<" (Var "w1") (Num 15))) (Op2 "|" (Op2 ">>" (Var "w1") (Num 19)) (Op2 "<<" (Var "w1") (Num 13)))) (Op2 ">>" (Var "w1") (Num 10))) (Var "w12")) (Op2 "^" (Op2 "^" (Op2 "|" (Op2 ">>" (Var "w4") (Num 7)) (Op2 "<<" (Var "w4") (Num 25))) (Op2 "|" (Op2 ">>" (Var "w4") (Num 18)) (Op2 "<<" (Var "w4") (Num 14)))) (Op2 ">>" (Var "w4") (Num 3)))));
      Assign "t1_52" (Op2 "+" (Op2 "+" (Op2 "+" (Op2 "+" (Var "e") (Op2 "^" (Op2 "^" (Op2 "|" (Op2 ">>" (Var "b") (Num 6)) (Op2 "<<" (Var "b") (Num 26))) (Op2 "|" (Op2 ">>" (Var "b") (Num 11)) (Op2 "<<" (Var "b") (Num 21)))) (Op2 "|" (Op2 ">>" (Var "b") (Num 25)) (Op2 "<<" (Var "b") (Num 7))))) (Op2 "^" (Var "d") (Op2 "&" (Var "b") (Op2 "^" (Var "c") (Var "d"))))) (Num 883997877)) (Var "w3"));
      Assign "t2_52" (Op2 "+" (Op2 "^" (Op2 "^" (Op2 "|" (Op2 ">>" (Var "f") (Num 2)) (Op2 "<<" (Var "f") (Num 30))) (Op2 "|" (Op2 ">>" (Var "f") (Num 13)) (Op2 "<<" (Var "f") (Num 19)))) (Op2 "|" (Op2 ">>" (Var "f") (Num 22)) (Op2 "<<" (Var "f") (Num 10)))) (Op2 "|" (Op2 "&" (Var "f") (Var "g")) (Op2 "&" (Var "h") (Op2 "|" (Var "f") (Var "g")))));
      Assign "a" (Op2 "+" (Var "a") (Var "t1_52"));
      Assign "e" (Op2 "+" (Var "t1_52") (Var "t2_52"));
      Assign "w4" (Op2 "+" (Var "w4") (Op2 "+" (Op2 "+" (Op2 "^" (Op2 "^" (Op2 "|" (Op2 ">>" (Var "w2") (Num 17)) (Op2 "<<" (Var "w2") (Num 15))) (Op2 "|" (Op2 ">>" (Var "w2") (Num 19)) (Op2 "<<" (Var "w2") (Num 13)))) (Op2 ">>" (Var "w2") (Num 10))) (Var "w13")) (Op2 "^" (Op2 "^" (Op2 "|" (Op2 ">>" (Var "w5") (Num 7)) (Op2 "<<" (Var "w5") (Num 25))) (Op2 "|" (Op2 ">>" (Var "w5") (Num 18)) (Op2 "<<" (Var "w5") (Num 14)))) (Op2 ">>" (Var "w5") (Num 3)))));
      Assign "t1_53" (Op2 "+" (Op2 "+" (Op2 "+" (Op2 "+" (Var "d") (Op2 "^" (Op2 "^" (Op2 "|" (Op2 ">>" (Var "a") (Num 6)) (Op2 "<<" (Var "a") (Num 26))) (Op2 "|" (Op2 ">>" (Var "a") (Num 11)) (Op2 "<<" (Var "a") (Num 21)))) (Op2 "|" (Op2 ">>" (Var "a") (Num 25)) (Op2 "<<" (Var "a") (Num 7))))) (Op2 "^" (Var "c") (Op2 "&" (Var "a") (Op2 "^" (Var "b") (Var "c"))))) (Num 958139571)) (Var "w4"));
      Assign "t2_53" (Op2 "+" (Op2 "^" (Op2 "^" (Op2 "|" (Op2 ">>" (Var "e") (Num 2)) (Op2 "<<" (Var "e") (Num 30))) (Op2 "|" (Op2 ">>" (Var "e") (Num 13)) (Op2 "<<" (Var "e") (Num 19)))) (Op2 "|" (Op2 ">>" (Var "e") (Num 22)) (Op2 "<<" (Var "e") (Num 10)))) (Op2 "|" (Op2 "&" (Var "e") (Var "f")) (Op2 "&" (Var "g") (Op2 "|" (Var "e") (Var "f")))));
      Assign "h" (Op2 "+" (Var "h") (Var "t1_53"));
      Assign "d" (Op2 "+" (Var "t1_53") (Var "t2_53"));
      Assign "w5" (Op2 "+" (Var "w5") (Op2 "+" (Op2 "+" (Op2 "^" (Op2 "^" (Op2 "|" (Op2 ">>" (Var "w3") (Num 17)) (Op2 "<<" (Var "w3") (Num 15))) (Op2 "|" (Op2 ">>" (Var "w3") (Num 19)) (Op2 "<<" (Var "w3") (Num 13)))) (Op2 ">>" (Var "w3") (Num 10))) (Var "w14")) (Op2 "^" (Op2 "^" (Op2 "|" (Op2 ">>" (Var "w6") (Num 7)) (Op2 "<<" (Var "w6") (Num 25))) (Op2 "|" (Op2 ">>" (Var "w6") (Num 18)) (Op2 "<<" (Var "w6") (Num 14)))) (Op2 ">>" (Var "w6") (Num 3)))));
      Assign "t1_54" (Op2 "+" (Op2 "+" (Op2 "+" (Op2 "+" (Var "c") (Op2 "^" (Op2 "^" (Op2 "|" (Op2 ">>" (Var "h") (Num 6)) (Op2 "<<" (Var "h") (Num 26))) (Op2 "|" (Op2 ">>" (Var "h") (Num 11)) (Op2 "<<" (Var "h") (Num 21)))) (Op2 "|" (Op2 ">>" (Var "h") (Num 25)) (Op2 "<<" (Var "h") (Num 7))))) (Op2 "^" (Var "b") (Op2 "&" (Var "h") (Op2 "^" (Var "a") (Var "b"))))) (Num 1322822218)) (Var "w5"));
      Assign "t2_54" (Op2 "+" (Op2 "^" (Op2 "^" (Op2 "|" (Op2 ">>" (Var "d") (Num 2)) (Op2 "<<" (Var "d") (Num 30))) (Op2 "|" (Op2 ">>" (Var "d") (Num 13)) (Op2 "<<" (Var "d") (Num 19)))) (Op2 "|" (Op2 ">>" (Var "d") (Num 22)) (Op2 "<<" (Var "d") (Num 10)))) (Op2 "|" (Op2 "&" (Var "d") (Var "e")) (Op2 "&" (Var "f") (Op2 "|" (Var "d") (Var "e")))));
      Assign "g" (Op2 "+" (Var "g") (Var "t1_54"));
      Assign "c" (Op2 "+" (Var "t1_54") (Var "t2_54"));
      Assign "w6" (Op2 "+" (Var "w6") (Op2 "+" (Op2 "+" (Op2 "^" (Op2 "^" (Op2 "|" (Op2 ">>" (Var "w4") (Num 17)) (Op2 "<<" (Var "w4") (Num 15))) (Op2 "|" (Op2 ">>" (Var "w4") (Num 19)) (Op2 "<<" (Var "w4") (Num 13)))) (Op2 ">>" (Var "w4") (Num 10))) (Var "w15")) (Op2 "^" (Op2 "^" (Op2 "|" (Op2 ">>" (Var "w7") (Num 7)) (Op2 "<<" (Var "w7") (Num 25))) (Op2 "|" (Op2 ">>" (Var "w7") (Num 18)) (Op2 "<<" (Var "w7") (Num 14)))) (Op2 ">>" (Var "w7") (Num 3)))));
      Assign "t1_55" (Op2 "+" (Op2 "+" (Op2 "+" (Op2 "+" (Var "b") (Op2 "^" (Op2 "^" (Op2 "|" (Op2 ">>" (Var "g") (Num 6)) (Op2 "<<" (Var "g") (Num 26))) (Op2 "|" (Op2 ">>" (Var "g") (Num 11)) (Op2 "<<" (Var "g") (Num 21)))) (Op2 "|" (Op2 ">>" (Var "g") (Num 25)) (Op2 "<<" (Var "g") (Num 7))))) (Op2 "^" (Var "a") (Op2 "&" (Var "g") (Op2 "^" (Var "h") (Var "a"))))) (Num 1537002063)) (Var "w6"));
      Assign "t2_55" (Op2 "+" (Op2 "^" (Op2 "^" (Op2 "|" (Op2 ">>" (Var "c") (Num 2)) (Op2 "<<" (Var "c") (Num 30))) (Op2 "|" (Op2 ">>" (Var "c") (Num 13)) (Op2 "<<" (Var "c") (Num 19)))) (Op2 "|" (Op2 ">>" (Var "c") (Num 22)) (Op2 "<<" (Var "c") (Num 10)))) (Op2 "|" (Op2 "&" (Var "c") (Var "d")) (Op2 "&" (Var "e") (Op2 "|" (Var "c") (Var "d")))));
      Assign "f" (Op2 "+" (Var "f") (Var "t1_55"));
      Assign "b" (Op2 "+" (Var "t1_55") (Var "t2_55"));
      Assign "w7" (Op2 "+" (Var "w7") (Op2 "+" (Op2 "+" (Op2 "^" (Op2 "^" (Op2 "|" (Op2 ">>" (Var "w5") (Num 17)) (Op2 "<<" (Var "w5") (Num 15))) (Op2 "|" (Op2 ">>" (Var "w5") (Num 19)) (Op2 "<<" (Var "w5") (Num 13)))) (Op2 ">>" (Var "w5") (Num 10))) (Var "w0")) (Op2 "^" (Op2 "^" (Op2 "|" (Op2 ">>" (Var "w8") (Num 7)) (Op2 "<<" (Var "w8") (Num 25))) (Op2 "|" (Op2 ">>" (Var "w8") (Num 18)) (Op2 "<<" (Var "w8") (Num 14)))) (Op2 ">>" (Var "w8") (Num 3)))));
      Assign "t1_56" (Op2 "+" (Op2 "+" (Op2 "+" (Op2 "+" (Var "a") (Op2 "^" (Op2 "^" (Op2 "|" (Op2 ">>" (Var "f") (Num 6)) (Op2 "<<" (Var "f") (Num 26))) (Op2 "|" (Op2 ">>" (Var "f") (Num 11)) (Op2 "<<" (Var "f") (Num 21)))) (Op2 "|" (Op2 ">>" (Var "f") (Num 25)) (Op2 "<<" (Var "f") (Num 7))))) (Op2 "^" (Var "h") (Op2 "&" (Var "f") (Op2 "^" (Var "g") (Var "h"))))) (Num 1747873779)) (Var "w7"));
      Assign "t2_56" (Op2 "+" (Op2 "^" (Op2 "^" (Op2 "|" (Op2 ">>" (Var "b") (Num 2)) (Op2 "<<" (Var "b") (Num 30))) (Op2 "|" (Op2 ">>" (Var "b") (Num 13)) (Op2 "<<" (Var "b") (Num 19)))) (Op2 "|" (Op2 ">>" (Var "b") (Num 22)) (Op2 "<<" (Var "b") (Num 10)))) (Op2 "|" (Op2 "&" (Var "b") (Var "c")) (Op2 "&" (Var "d") (Op2 "|" (Var "b") (Var "c")))));
      Assign "e" (Op2 "+" (Var "e") (Var "t1_56"));
      Assign "a" (Op2 "+" (Var "t1_56") (Var "t2_56"));
      Assign "w8" (Op2 "+" (Var "w8") (Op2 "+" (Op2 "+" (Op2 "^" (Op2 "^" (Op2 "|" (Op2 ">>" (Var "w6") (Num 17)) (Op2 "<<" (Var "w6") (Num 15))) (Op2 "|" (Op2 ">>" (Var "w6") (Num 19)) (Op2 "<<" (Var "w6") (Num 13)))) (Op2 ">>" (Var "w6") (Num 10))) (Var "w1")) (Op2 "^" (Op2 "^" (Op2 "|" (Op2 ">>" (Var "w9") (Num 7)) (Op2 "<<" (Var "w9") (Num 25))) (Op2 "|" (Op2 ">>" (Var "w9") (Num 18)) (Op2 "<<" (Var "w9") (Num 14)))) (Op2 ">>" (Var "w9") (Num 3)))));
      Assign "t1_57" (Op2 "+" (Op2 "+" (Op2 "+" (Op2 "+" (Var "h") (Op2 "^" (Op2 "^" (Op2 "|" (Op2 ">>" (Var "e") (Num 6)) (Op2 "<<" (Var "e") (Num 26))) (Op2 "|" (Op2 ">>" (Var "e") (Num 11)) (Op2 "<<" (Var "e") (Num 21)))) (Op2 "|" (Op2 ">>" (Var "e") (Num 25)) (Op2 "<<" (Var "e") (Num 7))))) (Op2 "^" (Var "g") (Op2 "&" (Var "e") (Op2 "^" (Var "f") (Var "g"))))) (Num 1955562222)) (Var "w8"));
      Assign "t2_57" (Op2 "+" (Op2 "^" (Op2 "^" (Op2 "|" (Op2 ">>" (Var "a") (Num 2)) (Op2 "<<" (Var "a") (Num 30))) (Op2 "|" (Op2 ">>" (Var "a") (Num 13)) (Op2 "<<" (Var "a") (Num 19)))) (Op2 "|" (Op2 ">>" (Var "a") (Num 22)) (Op2 "<<" (Var "a") (Num 10)))) (Op2 "|" (Op2 "&" (Var "a") (Var "b")) (Op2 "&" (Var "c") (Op2 "|" (Var "a") (Var "b")))));
      Assign "d" (Op2 "+" (Var "d") (Var "t1_57"));
      Assign "h" (Op2 "+" (Var "t1_57") (Var "t2_57"));
      Assign "w9" (Op2 "+" (Var "w9") (Op2 "+" (Op2 "+" (Op2 "^" (Op2 "^" (Op2 "|" (Op2 ">>" (Var "w7") (Num 17)) (Op2 "<<" (Var "w7") (Num 15))) (Op2 "|" (Op2 ">>" (Var "w7") (Num 19)) (Op2 "<<" (Var "w7") (Num 13)))) (Op2 ">>" (Var "w7") (Num 10))) (Var "w2")) (Op2 "^" (Op2 "^" (Op2 "|" (Op2 ">>" (Var "w10") (Num 7)) (Op2 "<<" (Var "w10") (Num 25))) (Op2 "|" (Op2 ">>" (Var "w10") (Num 18)) (Op2 "<<" (Var "w10") (Num 14)))) (Op2 ">>" (Var "w10") (Num 3)))));
      Assign "t1_58" (Op2 "+" (Op2 "+" (Op2 "+" (Op2 "+" (Var "g") (Op2 "^" (Op2 "^" (Op2 "|" (Op2 ">>" (Var "d") (Num 6)) (Op2 "<<" (Var "d") (Num 26))) (Op2 "|" (Op2 ">>" (Var "d") (Num 11)) (Op2 "<<" (Var "d") (Num 21)))) (Op2 "|" (Op2 ">>" (Var "d") (Num 25)) (Op2 "<<" (Var "d") (Num 7))))) (Op2 "^" (Var "f") (Op2 "&" (Var "d") (Op2 "^" (Var "e") (Var "f"))))) (Num 2024104815)) (Var "w9"));
      Assign "t2_58" (Op2 "+" (Op2 "^" (Op2 "^" (Op2 "|" (Op2 ">>" (Var "h") (Num 2)) (Op2 "<<" (Var "h") (Num 30))) (Op2 "|" (Op2 ">>" (Var "h") (Num 13)) (Op2 "<<" (Var "h") (Num 19)))) (Op2 "|" (Op2 ">>" (Var "h") (Num 22)) (Op2 "<<" (Var "h") (Num 10)))) (Op2 "|" (Op2 "&" (Var "h") (Var "a")) (Op2 "&" (Var "b") (Op2 "|" (Var "h") (Var "a")))));
      Assign "c" (Op2 "+" (Var "c") (Var "t1_58"));
      Assign "g" (Op2 "+" (Var "t1_58") (Var "t2_58"));
      Assign "w10" (Op2 "+" (Var "w10") (Op2 "+" (Op2 "+" (Op2 "^" (Op2 "^" (Op2 "|" (Op2 ">>" (Var "w8") (Num 17)) (Op2 "<<" (Var "w8") (Num 15))) (Op2 "|" (Op2 ">>" (Var "w8") (Num 19)) (Op2 "<<" (Var "w8") (Num 13)))) (Op2 ">>" (Var "w8") (Num 10))) (Var "w3")) (Op2 "^" (Op2 "^" (Op2 "|" (Op2 ">>" (Var "w11") (Num 7)) (Op2 "<<" (Var "w11") (Num 25))) (Op2 "|" (Op2 ">>" (Var "w11") (Num 18)) (Op2 "<<" (Var "w11") (Num 14)))) (Op2 ">>" (Var "w11") (Num 3)))));
      Assign "t1_59" (Op2 "+" (Op2 "+" (Op2 "+" (Op2 "+" (Var "f") (Op2 "^" (Op2 "^" (Op2 "|" (Op2 ">>" (Var "c") (Num 6)) (Op2 "<<" (Var "c") (Num 26))) (Op2 "|" (Op2 ">>" (Var "c") (Num 11)) (Op2 "<<" (Var "c") (Num 21)))) (Op2 "|" (Op2 ">>" (Var "c") (Num 25)) (Op2 "<<" (Var "c") (Num 7))))) (Op2 "^" (Var "e") (Op2 "&" (Var "c") (Op2 "^" (Var "d") (Var "e"))))) (Num 2227730452)) (Var "w10"));
      Assign "t2_59" (Op2 "+" (Op2 "^" (Op2 "^" (Op2 "|" (Op2 ">>" (Var "g") (Num 2)) (Op2 "<<" (Var "g") (Num 30))) (Op2 "|" (Op2 ">>" (Var "g") (Num 13)) (Op2 "<<" (Var "g") (Num 19)))) (Op2 "|" (Op2 ">>" (Var "g") (Num 22)) (Op2 "<<" (Var "g") (Num 10)))) (Op2 "|" (Op2 "&" (Var "g") (Var "h")) (Op2 "&" (Var "a") (Op2 "|" (Var "g") (Var "h")))));
      Assign "b" (Op2 "+" (Var "b") (Var "t1_59"));
      Assign "f" (Op2 "+" (Var "t1_59") (Var "t2_59"));
      Assign "w11" (Op2 "+" (Var "w11") (Op2 "+" (Op2 "+" (Op2 "^" (Op2 "^" (Op2 "|" (Op2 ">>" (Var "w9") (Num 17)) (Op2 "<<" (Var "w9") (Num 15))) (Op2 "|" (Op2 ">>" (Var "w9") (Num 19)) (Op2 "<<" (Var "w9") (Num 13)))) (Op2 ">>" (Var "w9") (Num 10))) (Var "w4")) (Op2 "^" (Op2 "^" (Op2 "|" (Op2 ">>" (Var "w12") (Num 7)) (Op2 "<<" (Var "w12") (Num 25))) (Op2 "|" (Op2 ">>" (Var "w12") (Num 18)) (Op2 "<<" (Var "w12") (Num 14)))) (Op2 ">>" (Var "w12") (Num 3)))));
      Assign "t1_60" (Op2 "+" (Op2 "+" (Op2 "+" (Op2 "+" (Var "e") (Op2 "^" (Op2 "^" (Op2 "|" (Op2 ">>" (Var "b") (Num 6)) (Op2 "<<" (Var "b") (Num 26))) (Op2 "|" (Op2 ">>" (Var "b") (Num 11)) (Op2 "<<" (Var "b") (Num 21)))) (Op2 "|" (Op2 ">>" (Var "b") (Num 25)) (Op2 "<<" (Var "b") (Num 7))))) (Op2 "^" (Var "d") (Op2 "&" (Var "b") (Op2 "^" (Var "c") (Var "d"))))) (Num 2361852424)) (Var "w11"));
      Assign "t2_60" (Op2 "+" (Op2 "^" (Op2 "^" (Op2 "|" (Op2 ">>" (Var "f") (Num 2)) (Op2 "<<" (Var "f") (Num 30))) (Op2 "|" (Op2 ">>" (Var "f") (Num 13)) (Op2 "<<" (Var "f") (Num 19)))) (Op2 "|" (Op2 ">>" (Var "f") (Num 22)) (Op2 "<<" (Var "f") (Num 10)))) (Op2 "|" (Op2 "&" (Var "f") (Var "g")) (Op2 "&" (Var "h") (Op2 "|" (Var "f") (Var "g")))));
      Assign "a" (Op2 "+" (Var "a") (Var "t1_60"));
      Assign "e" (Op2 "+" (Var "t1_60") (Var "t2_60"));
      Assign "w12" (Op2 "+" (Var "w12") (Op2 "+" (Op2 "+" (Op2 "^" (Op2 "^" (Op2 "|" (Op2 ">>" (Var "w10") (Num 17)) (Op2 "<<" (Var "w10") (Num 15))) (Op2 "|" (Op2 ">>" (Var "w10") (Num 19)) (Op2 "<<" (Var "w10") (Num 13)))) (Op2 ">>" (Var "w10") (Num 10))) (Var "w5")) (Op2 "^" (Op2 "^" (Op2 "|" (Op2 ">>" (Var "w13") (Num 7)) (Op2 "<<" (Var "w13") (Num 25))) (Op2 "|" (Op2 ">>" (Var "w13") (Num 18)) (Op2 "<<" (Var "w13") (Num 14)))) (Op2 ">>" (Var "w13") (Num 3)))));
      Assign "t1_61" (Op2 "+" (Op2 "+" (Op2 "+" (Op2 "+" (Var "d") (Op2 "^" (Op2 "^" (Op2 "|" (Op2 ">>" (Var "a") (Num 6)) (Op2 "<<" (Var "a") (Num 26))) (Op2 "|" (Op2 ">>" (Var "a") (Num 11)) (Op2 "<<" (Var "a") (Num 21)))) (Op2 "|" (Op2 ">>" (Var "a") (Num 25)) (Op2 "<<" (Var "a") (Num 7))))) (Op2 "^" (Var "c") (Op2 "&" (Var "a") (Op2 "^" (Var "b") (Var "c"))))) (Num 2428436474)) (Var "w12"));
      Assign "t2_61" (Op2 "+" (Op2 "^" (Op2 "^" (Op2 "|" (Op2 ">>" (Var "e") (Num 2)) (Op2 "<<" (Var "e") (Num 30))) (Op2 "|" (Op2 ">>" (Var "e") (Num 13)) (Op2 "<<" (Var "e") (Num 19)))) (Op2 "|" (Op2 ">>" (Var "e") (Num 22)) (Op2 "<<" (Var "e") (Num 10)))) (Op2 "|" (Op2 "&" (Var "e") (Var "f")) (Op2 "&" (Var "g") (Op2 "|" (Var "e") (Var "f")))));
      Assign "h" (Op2 "+" (Var "h") (Var "t1_61"));
      Assign "d" (Op2 "+" (Var "t1_61") (Var "t2_61"));
      Assign "w13" (Op2 "+" (Var "w13") (Op2 "+" (Op2 "+" (Op2 "^" (Op2 "^" (Op2 "|" (Op2 ">>" (Var "w11") (Num 17)) (Op2 "<<" (Var "w11") (Num 15))) (Op2 "|" (Op2 ">>" (Var "w11") (Num 19)) (Op2 "<<" (Var "w11") (Num 13)))) (Op2 ">>" (Var "w11") (Num 10))) (Var "w6")) (Op2 "^" (Op2 "^" (Op2 "|" (Op2 ">>" (Var "w14") (Num 7)) (Op2 "<<" (Var "w14") (Num 25))) (Op2 "|" (Op2 ">>" (Var "w14") (Num 18)) (Op2 "<<" (Var "w14") (Num 14)))) (Op2 ">>" (Var "w14") (Num 3)))));
      Assign "t1_62" (Op2 "+" (Op2 "+" (Op2 "+" (Op2 "+" (Var "c") (Op2 "^" (Op2 "^" (Op2 "|" (Op2 ">>" (Var "h") (Num 6)) (Op2 "<<" (Var "h") (Num 26))) (Op2 "|" (Op2 ">>" (Var "h") (Num 11)) (Op2 "<<" (Var "h") (Num 21)))) (Op2 "|" (Op2 ">>" (Var "h") (Num 25)) (Op2 "<<" (Var "h") (Num 7))))) (Op2 "^" (Var "b") (Op2 "&" (Var "h") (Op2 "^" (Var "a") (Var "b"))))) (Num 2756734187)) (Var "w13"));
      Assign "t2_62" (Op2 "+" (Op2 "^" (Op2 "^" (Op2 "|" (Op2 ">>" (Var "d") (Num 2)) (Op2 "<<" (Var "d") (Num 30))) (Op2 "|" (Op2 ">>" (Var "d") (Num 13)) (Op2 "<<" (Var "d") (Num 19)))) (Op2 "|" (Op2 ">>" (Var "d") (Num 22)) (Op2 "<<" (Var "d") (Num 10)))) (Op2 "|" (Op2 "&" (Var "d") (Var "e")) (Op2 "&" (Var "f") (Op2 "|" (Var "d") (Var "e")))));
      Assign "g" (Op2 "+" (Var "g") (Var "t1_62"));
      Assign "c" (Op2 "+" (Var "t1_62") (Var "t2_62"));
      Assign "t1_63" (Op2 "+" (Op2 "+" (Op2 "+" (Op2 "+" (Var "b") (Op2 "^" (Op2 "^" (Op2 "|" (Op2 ">>" (Var "g") (Num 6)) (Op2 "<<" (Var "g") (Num 26))) (Op2 "|" (Op2 ">>" (Var "g") (Num 11)) (Op2 "<<" (Var "g") (Num 21)))) (Op2 "|" (Op2 ">>" (Var "g") (Num 25)) (Op2 "<<" (Var "g") (Num 7))))) (Op2 "^" (Var "a") (Op2 "&" (Var "g") (Op2 "^" (Var "h") (Var "a"))))) (Num 3204031479)) (Op2 "+" (Op2 "+" (Op2 "+" (Var "w14") (Op2 "^" (Op2 "^" (Op2 "|" (Op2 ">>" (Var "w12") (Num 17)) (Op2 "<<" (Var "w12") (Num 15))) (Op2 "|" (Op2 ">>" (Var "w12") (Num 19)) (Op2 "<<" (Var "w12") (Num 13)))) (Op2 ">>" (Var "w12") (Num 10)))) (Var "w7")) (Op2 "^" (Op2 "^" (Op2 "|" (Op2 ">>" (Var "w15") (Num 7)) (Op2 "<<" (Var "w15") (Num 25))) (Op2 "|" (Op2 ">>" (Var "w15") (Num 18)) (Op2 "<<" (Var "w15") (Num 14)))) (Op2 ">>" (Var "w15") (Num 3)))));
      Assign "t2_63" (Op2 "+" (Op2 "^" (Op2 "^" (Op2 "|" (Op2 ">>" (Var "c") (Num 2)) (Op2 "<<" (Var "c") (Num 30))) (Op2 "|" (Op2 ">>" (Var "c") (Num 13)) (Op2 "<<" (Var "c") (Num 19)))) (Op2 "|" (Op2 ">>" (Var "c") (Num 22)) (Op2 "<<" (Var "c") (Num 10)))) (Op2 "|" (Op2 "&" (Var "c") (Var "d")) (Op2 "&" (Var "e") (Op2 "|" (Var "c") (Var "d")))));
      Assign "f" (Op2 "+" (Var "f") (Var "t1_63"));
      Assign "b" (Op2 "+" (Var "t1_63") (Var "t2_63"));
      Assign "t1_64" (Op2 "+" (Op2 "+" (Op2 "+" (Op2 "+" (Var "a") (Op2 "^" (Op2 "^" (Op2 "|" (Op2 ">>" (Var "f") (Num 6)) (Op2 "<<" (Var "f") (Num 26))) (Op2 "|" (Op2 ">>" (Var "f") (Num 11)) (Op2 "<<" (Var "f") (Num 21)))) (Op2 "|" (Op2 ">>" (Var "f") (Num 25)) (Op2 "<<" (Var "f") (Num 7))))) (Op2 "^" (Var "h") (Op2 "&" (Var "f") (Op2 "^" (Var "g") (Var "h"))))) (Num 3329325298)) (Op2 "+" (Op2 "+" (Op2 "+" (Var "w15") (Op2 "^" (Op2 "^" (Op2 "|" (Op2 ">>" (Var "w13") (Num 17)) (Op2 "<<" (Var "w13") (Num 15))) (Op2 "|" (Op2 ">>" (Var "w13") (Num 19)) (Op2 "<<" (Var "w13") (Num 13)))) (Op2 ">>" (Var "w13") (Num 10)))) (Var "w8")) (Op2 "^" (Op2 "^" (Op2 "|" (Op2 ">>" (Var "w0") (Num 7)) (Op2 "<<" (Var "w0") (Num 25))) (Op2 "|" (Op2 ">>" (Var "w0") (Num 18)) (Op2 "<<" (Var "w0") (Num 14)))) (Op2 ">>" (Var "w0") (Num 3)))));
      Assign "t2_64" (Op2 "+" (Op2 "^" (Op2 "^" (Op2 "|" (Op2 ">>" (Var "b") (Num 2)) (Op2 "<<" (Var "b") (Num 30))) (Op2 "|" (Op2 ">>" (Var "b") (Num 13)) (Op2 "<<" (Var "b") (Num 19)))) (Op2 "|" (Op2 ">>" (Var "b") (Num 22)) (Op2 "<<" (Var "b") (Num 10)))) (Op2 "|" (Op2 "&" (Var "b") (Var "c")) (Op2 "&" (Var "d") (Op2 "|" (Var "b") (Var "c")))));
      Assign "e" (Op2 "+" (Var "e") (Var "t1_64"));
      Assign "a" (Op2 "+" (Var "t1_64") (Var "t2_64"));
      Store Sec (Op2 "[]" (Var "s") (Num 0)) (Op2 "+" (Load Sec (Op2 "[]" (Var "s") (Num 0))) (Var "a"));
      Store Sec (Op2 "[]" (Var "s") (Num 1)) (Op2 "+" (Load Sec (Op2 "[]" (Var "s") (Num 1))) (Var "b"));
      Store Sec (Op2 "[]" (Var "s") (Num 2)) (Op2 "+" (Load Sec (Op2 "[]" (Var "s") (Num 2))) (Var "c"));
      Store Sec (Op2 "[]" (Var "s") (Num 3)) (Op2 "+" (Load Sec (Op2 "[]" (Var "s") (Num 3))) (Var "d"));
      Store Sec (Op2 "[]" (Var "s") (Num 4)) (Op2 "+" (Load Sec (Op2 "[]" (Var "s") (Num 4))) (Var "e"));
      Store Sec (Op2 "[]" (Var "s") (Num 5)) (Op2 "+" (Load Sec (Op2 "[]" (Var "s") (Num 5))) (Var "f"));
      Store Sec (Op2 "[]" (Var "s") (Num 6)) (Op2 "+" (Load Sec (Op2 "[]" (Var "s") (Num 6))) (Var "g"));
      Store Sec (Op2 "[]" (Var "s") (Num 7)) (Op2 "+" (Load Sec (Op2 "[]" (Var "s") (Num 7))) (Var "h"))]).
(** src/hash_impl.h:126-143 secp256k1_sha256_write *)
Definition c64_sha256_write : func := mkfunc "secp256k1_sha256_write" [("hash", false); ("data", false); ("len", false)] false
  (seq [Assign "bufsize" (Op2 "&" (Load Pub (Op1 ".bytes" (Var "hash"))) (Num 63));
      Store Pub (Op1 ".bytes" (Var "hash")) (Op2 "+" (Load Pub (Op1 ".bytes" (Var "hash"))) (Var "len"));
      Loop (If (Op2 ">=" (Var "len") (Op2 "-" (Num 64) (Var "bufsize"))) (seq [Assign "chunk_len" (Op2 "-" (Num 64) (Var "bufsize"));
      Prim "memcpy" [Op2 "+" (Op1 ".buf" (Var "hash")) (Var "bufsize"); Var "data"; Var "chunk_len"];
      Assign "data" (Op2 "+" (Var "data") (Var "chunk_len"));
      Assign "len" (Op2 "-" (Var "len") (Var "chunk_len"));
      Call "_" "secp256k1_sha256_transform" [Op1 ".s" (Var "hash"); Op1 ".buf" (Var "hash")];
      Assign "bufsize" (Num 0)]) (Break));
      If (Var "len") (Prim "memcpy" [Op2 "+" (Op1 ".buf" (Var "hash")) (Var "bufsize"); Var "data"; Var "len"]) (Skip)]).
(** src/util.h:408-413 secp256k1_write_be32 *)
Definition c64_write_be32 : func := mkfunc "secp256k1_write_be32" [("p", false); ("x", true)] false
  (seq [Store Sec (Op2 "[]" (Var "p") (Num 3)) (Var "x");
      Store Sec (Op2 "[]" (Var "p") (Num 2)) (Op2 ">>" (Var "x") (Num 8));
      Store Sec (Op2 "[]" (Var "p") (Num 1)) (Op2 ">>" (Var "x") (Num 16));
      Store Sec (Op2 "[]" (Var "p") (Num 0)) (Op2 ">>" (Var "x") (Num 24))]).
(** src/hash_impl.h:126-143 secp256k1_sha256_write@SP *)
Definition c64_sha256_write__SP : func := mkfunc "secp256k1_sha256_write@SP" [("hash", false); ("data", false); ("len", false)] false
  (seq [Assign "bufsize" (Op2 "&" (Load Pub (Op1 ".bytes" (Var "hash"))) (Num 63));
      Store Pub (Op1 ".bytes" (Var "hash")) (Op2 "+" (Load Pub (Op1 ".bytes" (Var "hash"))) (Var "len"));
      Loop (If (Op2 ">=" (Var "len") (Op2 "-" (Num 64) (Var "bufsize"))) (seq [Assign "chunk_len" (Op2 "-" (Num 64) (Var "bufsize"));
      Prim "memcpy" [Op2 "+" (Op1 ".buf" (Var "hash")) (Var "bufsize"); Var "data"; Var "chunk_len"];
      Assign "data" (Op2 "+" (Var "data") (Var "chunk_len"));
      Assign "len" (Op2 "-" (Var "len") (Var "chunk_len"));
      Call "_" "secp256k1_sha256_transform" [Op1 ".s" (Var "hash"); Op1 ".buf" (Var "hash")];
      Assign "bufsize" (Num 0)]) (Break));
      If (Var "len") (Prim "memcpy" [Op2 "+" (Op1 ".buf" (Var "hash")) (Var "bufsize"); Var "data"; Var "len"]) (Skip)]).
(** src/hash_impl.h:145-159 secp256k1_sha256_finalize *)
Definition c64_sha256_finalize : func := mkfunc "secp256k1_sha256_finalize" [("hash", false); ("out32", false)] false
  (seq [Call "_" "secp256k1_write_be32" [Op2 "[]" (Addr "sizedesc") (Num 0); Op2 ">>" (Load Pub (Op1 ".bytes" (Var "hash"))) (Num 29)];
      Call "_" "secp256k1_write_be32" [Op2 "[]" (Addr "sizedesc") (Num 4); Op2 "<<" (Load Pub (Op1 ".bytes" (Var "hash"))) (Num 3)];
      Call "_" "secp256k1_sha256_write@SP" [Var "hash"; Op0 "secp256k1_sha256_finalize.pad"; Op2 "+" (Num 1) (Op2 "%" (Op2 "-" (Num 119) (Op2 "%" (Load Pub (Op1 ".bytes" (Var "hash"))) (Num 64))) (Num 64))];
      Call "_" "secp256k1_sha256_write" [Var "hash"; Addr "sizedesc"; Num 8];
      Assign "i" (Num 0);
      Loop (If (Op2 "<" (Var "i") (Num 8)) (seq [Call "_" "secp256k1_write_be32" [Op2 "[]" (Var "out32") (Op2 "*" (Num 4) (Var "i")); Load Sec (Op2 "[]" (Op1 ".s" (Var "hash")) (Var "i"))];
      Store Sec (Op2 "[]" (Op1 ".s" (Var "hash")) (Var "i")) (Num 0);
      Assign "i" (Op2 "+" (Var "i") (Num 1))]) (Break))]).
(** src/hash_impl.h:178-204 secp256k1_hmac_sha256_initialize *)
Definition c64_hmac_sha256_initialize : func := mkfunc "secp256k1_hmac_sha256_initialize" [("hash", false); ("key", false); ("keylen", false)] false
  (seq [If (Op2 "<=" (Var "keylen") (Op0 "sizeof ( rkey )")) (seq [Prim "memcpy" [Addr "rkey"; Var "key"; Var "keylen"];
      Prim "memset" [Op2 "+" (Addr "rkey") (Var "keylen"); Num 0; Op2 "-" (Op0 "sizeof ( rkey )") (Var "keylen")]]) (seq [Call "_" "secp256k1_sha256_initialize" [Addr "sha256"];
      Call "_" "secp256k1_sha256_write" [Addr "sha256"; Var "key"; Var "keylen"];
      Call "_" "secp256k1_sha256_finalize" [Addr "sha256"; Addr "rkey"];
      Prim "memset" [Op2 "+" (Addr "rkey") (Num 32); Num 0; Num 32]]);
      Call "_" "secp256k1_sha256_initialize" [Op1 ".outer" (Var "hash")];
      Assign "n" (Num 0);
      Loop (If (Op2 "<" (Var "n") (Op0 "sizeof ( rkey )")) (seq [Store Sec (Op2 "[]" (Addr "rkey") (Var "n")) (Op2 "^" (Load Sec (Op2 "[]" (Addr "rkey") (Var "n"))) (Num 92));
      Assign "n" (Op2 "+" (Var "n") (Num 1))]) (Break));
      Call "_" "secp256k1_sha256_write" [Op1 ".outer" (Var "hash"); Addr "rkey"; Op0 "sizeof ( rkey )"];
      Call "_" "secp256k1_sha256_initialize" [Op1 ".inner" (Var "hash")];
      Assign "n" (Num 0);
      Loop (If (Op2 "<" (Var "n") (Op0 "sizeof ( rkey )")) (seq [Store Sec (Op2 "[]" (Addr "rkey") (Var "n")) (Op2 "^" (Load Sec (Op2 "[]" (Addr "rkey") (Var "n"))) (Op2 "^" (Num 92) (Num 54)));
      Assign "n" (Op2 "+" (Var "n") (Num 1))]) (Break));
      Call "_" "secp256k1_sha256_write" [Op1 ".inner" (Var "hash"); Addr "rkey"; Op0 "sizeof ( rkey )"];
      Prim "secp256k1_memclear" [Addr "rkey"; Op0 "sizeof ( rkey )"]]).
(** src/hash_impl.h:206-208 secp256k1_hmac_sha256_write *)
Definition c64_hmac_sha256_write : func := mkfunc "secp256k1_hmac_sha256_write" [("hash", false); ("data", false); ("size", false)] false
  (Call "_" "secp256k1_sha256_write" [Op1 ".inner" (Var "hash"); Var "data"; Var "size"]).
(** src/hash_impl.h:206-208 secp256k1_hmac_sha256_write@SP *)
Definition c64_hmac_sha256_write__SP : func := mkfunc "secp256k1_hmac_sha256_write@SP" [("hash", false); ("data", false); ("size", false)] false
  (Call "_" "secp256k1_sha256_write@SP" [Op1 ".inner" (Var "hash"); Var "data"; Var "size"]).
(** src/hash_impl.h:210-216 secp256k1_hmac_sha256_finalize *)
Definition c64_hmac_sha256_finalize : func := mkfunc "secp256k1_hmac_sha256_finalize" [("hash", false); ("out32", false)] false
  (seq [Call "_" "secp256k1_sha256_finalize" [Op1 ".inner" (Var "hash"); Addr "temp"];
      Call "_" "secp256k1_sha256_write" [Op1 ".outer" (Var "hash"); Addr "temp"; Num 32];
      Prim "secp256k1_memclear" [Addr "temp"; Op0 "sizeof ( temp )"];
      Call "_" "secp256k1_sha256_finalize" [Op1 ".outer" (Var "hash"); Var "out32"]]).
(** src/hash_impl.h:222-250 secp256k1_rfc6979_hmac_sha256_initialize *)
Definition c64_rfc6979_hmac_sha256_initialize : func := mkfunc "secp256k1_rfc6979_hmac_sha256_initialize" [("rng", false); ("key", false); ("keylen", false)] false
  (seq [Prim "memset" [Op1 ".v" (Var "rng"); Num 1; Num 32];
      Prim "memset" [Op1 ".k" (Var "rng"); Num 0; Num 32];
      Call "_" "secp256k1_hmac_sha256_initialize" [Addr "hmac"; Op1 ".k" (Var "rng"); Num 32];
      Call "_" "secp256k1_hmac_sha256_write" [Addr "hmac"; Op1 ".v" (Var "rng"); Num 32];
      Call "_" "secp256k1_hmac_sha256_write@SP" [Addr "hmac"; Op0 "secp256k1_rfc6979_hmac_sha256_initialize.zero"; Num 1];
      Call "_" "secp256k1_hmac_sha256_write" [Addr "hmac"; Var "key"; Var "keylen"];
      Call "_" "secp256k1_hmac_sha256_finalize" [Addr "hmac"; Op1 ".k" (Var "rng")];
      Call "_" "secp256k1_hmac_sha256_initialize" [Addr "hmac"; Op1 ".k" (Var "rng"); Num 32];
      Call "_" "secp256k1_hmac_sha256_write" [Addr "hmac"; Op1 ".v" (Var "rng"); Num 32];
      Call "_" "secp256k1_hmac_sha256_finalize" [Addr "hmac"; Op1 ".v" (Var "rng")];
      Call "_" "secp256k1_hmac_sha256_initialize" [Addr "hmac"; Op1 ".k" (Var "rng"); Num 32];
      Call "_" "secp256k1_hmac_sha256_write" [Addr "hmac"; Op1 ".v" (Var "rng"); Num 32];
      Call "_" "secp256k1_hmac_sha256_write@SP" [Addr "hmac"; Op0 "secp256k1_rfc6979_hmac_sha256_initialize.one"; Num 1];
      Call "_" "secp256k1_hmac_sha256_write" [Addr "hmac"; Var "key"; Var "keylen"];
      Call "_" "secp256k1_hmac_sha256_finalize" [Addr "hmac"; Op1 ".k" (Var "rng")];
      Call "_" "secp256k1_hmac_sha256_initialize" [Addr "hmac"; Op1 ".k" (Var "rng"); Num 32];
      Call "_" "secp256k1_hmac_sha256_write" [Addr "hmac"; Op1 ".v" (Var "rng"); Num 32];
      Call "_" "secp256k1_hmac_sha256_finalize" [Addr "hmac"; Op1 ".v" (Var "rng")];
      Store Pub (Op1 ".retry" (Var "rng")) (Num 0)]).
(** src/hash_impl.h:252-281 secp256k1_rfc6979_hmac_sha256_generate *)
Definition c64_rfc6979_hmac_sha256_generate : func := mkfunc "secp256k1_rfc6979_hmac_sha256_generate" [("rng", false); ("out", false); ("outlen", false)] false
  (seq [If (Load Pub (Op1 ".retry" (Var "rng"))) (seq [Call "_" "secp256k1_hmac_sha256_initialize" [Addr "hmac"; Op1 ".k" (Var "rng"); Num 32];
      Call "_" "secp256k1_hmac_sha256_write" [Addr "hmac"; Op1 ".v" (Var "rng"); Num 32];
      Call "_" "secp256k1_hmac_sha256_write@SP" [Addr "hmac"; Op0 "secp256k1_rfc6979_hmac_sha256_generate.zero"; Num 1];
      Call "_" "secp256k1_hmac_sha256_finalize" [Addr "hmac"; Op1 ".k" (Var "rng")];
      Call "_" "secp256k1_hmac_sha256_initialize" [Addr "hmac"; Op1 ".k" (Var "rng"); Num 32];
      Call "_" "secp256k1_hmac_sha256_write" [Addr "hmac"; Op1 ".v" (Var "rng"); Num 32];
      Call "_" "secp256k1_hmac_sha256_finalize" [Addr "hmac"; Op1 ".v" (Var "rng")]]) (Skip);
      Loop (If (Op2 ">" (Var "outlen") (Num 0)) (seq [Assign "now" (Var "outlen");
      Call "_" "secp256k1_hmac_sha256_initialize" [Addr "hmac_2"; Op1 ".k" (Var "rng"); Num 32];
      Call "_" "secp256k1_hmac_sha256_write" [Addr "hmac_2"; Op1 ".v" (Var "rng"); Num 32];
      Call "_" "secp256k1_hmac_sha256_finalize" [Addr "hmac_2"; Op1 ".v" (Var "rng")];
      If (Op2 ">" (Var "now") (Num 32)) (Assign "now" (Num 32)) (Skip);
      Prim "memcpy" [Var "out"; Op1 ".v" (Var "rng"); Var "now"];
      Assign "out" (Op2 "+" (Var "out") (Var "now"));
      Assign "outlen" (Op2 "-" (Var "outlen") (Var "now"))]) (Break));
      Store Pub (Op1 ".retry" (Var "rng")) (Num 1)]).
(** src/field_5x52_impl.h:228-263 secp256k1_fe_impl_set_b32_mod *)
Definition c64_fe_impl_set_b32_mod : func := mkfunc "secp256k1_fe_impl_set_b32_mod" [("r", false); ("a", false)] false
  (seq [Store Sec (Op2 "[]" (Op1 ".n" (Var "r")) (Num 0)) (Op2 "|" (Op2 "|" (Op2 "|" (Op2 "|" (Op2 "|" (Op2 "|" (Op1 "(uint64_t)" (Load Sec (Op2 "[]" (Var "a") (Num 31)))) (Op2 "<<" (Op1 "(uint64_t)" (Load Sec (Op2 "[]" (Var "a") (Num 30)))) (Num 8))) (Op2 "<<" (Op1 "(uint64_t)" (Load Sec (Op2 "[]" (Var "a") (Num 29)))) (Num 16))) (Op2 "<<" (Op1 "(uint64_t)" (Load Sec (Op2 "[]" (Var "a") (Num 28)))) (Num 24))) (Op2 "<<" (Op1 "(uint64_t)" (Load Sec (Op2 "[]" (Var "a") (Num 27)))) (Num 32))) (Op2 "<<" (Op1 "(uint64_t)" (Load Sec (Op2 "[]" (Var "a") (Num 26)))) (Num 40))) (Op2 "<<" (Op1 "(uint64_t)" (Op2 "&" (Load Sec (Op2 "[]" (Var "a") (Num 25))) (Num 15))) (Num 48)));
      Store Sec (Op2 "[]" (Op1 ".n" (Var "r")) (Num 1)) (Op2 "|" (Op2 "|" (Op2 "|" (Op2 "|" (Op2 "|" (Op2 "|" (Op1 "(uint64_t)" (Op2 "&" (Op2 ">>" (Load Sec (Op2 "[]" (Var "a") (Num 25))) (Num 4)) (Num 15))) (Op2 "<<" (Op1 "(uint64_t)" (Load Sec (Op2 "[]" (Var "a") (Num 24)))) (Num 4))) (Op2 "<<" (Op1 "(uint64_t)" (Load Sec (Op2 "[]" (Var "a") (Num 23)))) (Num 12))) (Op2 "<<" (Op1 "(uint64_t)" (Load Sec (Op2 "[]" (Var "a") (Num 22)))) (Num 20))) (Op2 "<<" (Op1 "(uint64_t)" (Load Sec (Op2 "[]" (Var "a") (Num 21)))) (Num 28))) (Op2 "<<" (Op1 "(uint64_t)" (Load Sec (Op2 "[]" (Var "a") (Num 20)))) (Num 36))) (Op2 "<<" (Op1 "(uint64_t)" (Load Sec (Op2 "[]" (Var "a") (Num 19)))) (Num 44)));
      Store Sec (Op2 "[]" (Op1 ".n" (Var "r")) (Num 2)) (Op2 "|" (Op2 "|" (Op2 "|" (Op2 "|" (Op2 "|" (Op2 "|" (Op1 "(uint64_t)" (Load Sec (Op2 "[]" (Var "a") (Num 18)))) (Op2 "<<" (Op1 "(uint64_t)" (Load Sec (Op2 "[]" (Var "a") (Num 17)))) (Num 8))) (Op2 "<<" (Op1 "(uint64_t)" (Load Sec (Op2 "[]" (Var "a") (Num 16)))) (Num 16))) (Op2 "<<" (Op1 "(uint64_t)" (Load Sec (Op2 "[]" (Var "a") (Num 15)))) (Num 24))) (Op2 "<<" (Op1 "(uint64_t)" (Load Sec (Op2 "[]" (Var "a") (Num 14)))) (Num 32))) (Op2 "<<" (Op1 "(uint64_t)" (Load Sec (Op2 "[]" (Var "a") (Num 13)))) (Num 40))) (Op2 "<<" (Op1 "(uint64_t)" (Op2 "&" (Load Sec (Op2 "[]" (Var "a") (Num 12))) (Num 15))) (Num 48)));
      Store Sec (Op2 "[]" (Op1 ".n" (Var "r")) (Num 3)) (Op2 "|" (Op2 "|" (Op2 "|" (Op2 "|" (Op2 "|" (Op2 "|" (Op1 "(uint64_t)" (Op2 "&" (Op2 ">>" (Load Sec (Op2 "[]" (Var "a") (Num 12))) (Num 4)) (Num 15))) (Op2 "<<" (Op1 "(uint64_t)" (Load Sec (Op2 "[]" (Var "a") (Num 11)))) (Num 4))) (Op2 "<<" (Op1 "(uint64_t)" (Load Sec (Op2 "[]" (Var "a") (Num 10)))) (Num 12))) (Op2 "<<" (Op1 "(uint64_t)" (Load Sec (Op2 "[]" (Var "a") (Num 9)))) (Num 20))) (Op2 "<<" (Op1 "(uint64_t)" (Load Sec (Op2 "[]" (Var "a") (Num 8)))) (Num 28))) (Op2 "<<" (Op1 "(uint64_t)" (Load Sec (Op2 "[]" (Var "a") (Num 7)))) (Num 36))) (Op2 "<<" (Op1 "(uint64_t)" (Load Sec (Op2 "[]" (Var "a") (Num 6)))) (Num 44)));
      Store Sec (Op2 "[]" (Op1 ".n" (Var "r")) (Num 4)) (Op2 "|" (Op2 "|" (Op2 "|" (Op2 "|" (Op2 "|" (Op1 "(uint64_t)" (Load Sec (Op2 "[]" (Var "a") (Num 5)))) (Op2 "<<" (Op1 "(uint64_t)" (Load Sec (Op2 "[]" (Var "a") (Num 4)))) (Num 8))) (Op2 "<<" (Op1 "(uint64_t)" (Load Sec (Op2 "[]" (Var "a") (Num 3)))) (Num 16))) (Op2 "<<" (Op1 "(uint64_t)" (Load Sec (Op2 "[]" (Var "a") (Num 2)))) (Num 24))) (Op2 "<<" (Op1 "(uint64_t)" (Load Sec (Op2 "[]" (Var "a") (Num 1)))) (Num 32))) (Op2 "<<" (Op1 "(uint64_t)" (Load Sec (Op2 "[]" (Var "a") (Num 0)))) (Num 40)))]).
(** src/hash_impl.h:283-285 secp256k1_rfc6979_hmac_sha256_finalize *)
Definition c64_rfc6979_hmac_sha256_finalize : func := mkfunc "secp256k1_rfc6979_hmac_sha256_finalize" [("rng", false)] false
  (Skip).
(** src/hash_impl.h:287-289 secp256k1_rfc6979_hmac_sha256_clear *)
Definition c64_rfc6979_hmac_sha256_clear : func := mkfunc "secp256k1_rfc6979_hmac_sha256_clear" [("rng", false)] false
  (Prim "secp256k1_memclear" [Var "rng"; Op0 "sizeof ( * rng )"]).
(** src/ecmult_gen_impl.h:285-339 secp256k1_ecmult_gen_blind *)
Definition c64_ecmult_gen_blind : func := mkfunc "secp256k1_ecmult_gen_blind" [("ctx", false); ("seed32", false)] false
  (seq [Call "_" "secp256k1_ecmult_gen_scalar_diff" [Addr "diff"];
      If (Op2 "==" (Var "seed32") (Num 0)) (seq [Call "_" "secp256k1_ge_neg@SP" [Op1 ".ge_offset" (Var "ctx"); Op0 "secp256k1_ge_const_g"];
      Call "_" "secp256k1_scalar_add@SPS" [Op1 ".scalar_offset" (Var "ctx"); Op0 "secp256k1_scalar_one"; Addr "diff"];
      Prim "copy" [Op1 ".proj_blind" (Var "ctx"); Op0 "secp256k1_fe_one"];
      Return (Num 0)]) (Skip);
      Call "_" "secp256k1_scalar_get_b32" [Addr "keydata"; Op1 ".scalar_offset" (Var "ctx")];
      Prim "memcpy" [Op2 "+" (Addr "keydata") (Num 32); Var "seed32"; Num 32];
      Call "_" "secp256k1_rfc6979_hmac_sha256_initialize" [Addr "rng"; Addr "keydata"; Num 64];
      Prim "secp256k1_memclear" [Addr "keydata"; Op0 "sizeof ( keydata )"];
      Call "_" "secp256k1_rfc6979_hmac_sha256_generate" [Addr "rng"; Addr "nonce32"; Num 32];
      Call "_" "secp256k1_fe_impl_set_b32_mod" [Addr "f"; Addr "nonce32"];
      Call "t1" "secp256k1_fe_impl_normalizes_to_zero" [Addr "f"];
      Call "_" "secp256k1_fe_impl_cmov@SP" [Addr "f"; Op0 "secp256k1_fe_one"; Var "t1"];
      Prim "copy" [Op1 ".proj_blind" (Var "ctx"); Addr "f"];
      Call "_" "secp256k1_rfc6979_hmac_sha256_generate" [Addr "rng"; Addr "nonce32"; Num 32];
      Call "_" "secp256k1_scalar_set_b32" [Addr "b"; Addr "nonce32"; Num 0];
      Call "t2" "secp256k1_scalar_is_zero" [Addr "b"];
      Call "_" "secp256k1_scalar_cmov@SP" [Addr "b"; Op0 "secp256k1_scalar_one"; Var "t2"];
      Call "_" "secp256k1_rfc6979_hmac_sha256_finalize" [Addr "rng"];
      Call "_" "secp256k1_ecmult_gen" [Var "ctx"; Addr "gb"; Addr "b"];
      Call "_" "secp256k1_scalar_negate" [Addr "b"; Addr "b"];
      Call "_" "secp256k1_scalar_add" [Op1 ".scalar_offset" (Var "ctx"); Addr "b"; Addr "diff"];
      Call "_" "secp256k1_ge_set_gej" [Op1 ".ge_offset" (Var "ctx"); Addr "gb"];
      Prim "secp256k1_memclear" [Addr "nonce32"; Op0 "sizeof ( nonce32 )"];
      Call "_" "secp256k1_scalar_clear" [Addr "b"];
      Call "_" "secp256k1_gej_clear" [Addr "gb"];
      Call "_" "secp256k1_fe_clear" [Addr "f"];
      Call "_" "secp256k1_rfc6979_hmac_sha256_clear" [Addr "rng"]]).
(** src/secp256k1.c:747-755 secp256k1_context_randomize *)
Definition c64_context_randomize : func := mkfunc "secp256k1_context_randomize" [("ctx", false); ("seed32", false)] false
  (seq [Call "t1" "secp256k1_context_is_proper" [Var "ctx"];
      If (Op1 "!" (Var "t1")) (seq [Prim "callback" [];
      Return (Num 0)]) (Skip);
      Call "t2" "secp256k1_ecmult_gen_context_is_built" [Op1 ".ecmult_gen_ctx" (Var "ctx")];
      If (Var "t2") (Call "_" "secp256k1_ecmult_gen_blind" [Op1 ".ecmult_gen_ctx" (Var "ctx"); Var "seed32"]) (Skip);
      Return (Num 1)]).
(** src/modules/extrakeys/main_impl.h:214-222 secp256k1_keypair_sec *)
Definition c64_keypair_sec : func := mkfunc "secp256k1_keypair_sec" [("ctx", false); ("seckey", false); ("keypair", false)] false
  (seq [If (Op1 "!" (Op2 "!=" (Var "seckey") (Num 0))) (seq [Prim "callback" [];
      Return (Num 0)]) (Skip);
      Prim "memset" [Var "seckey"; Num 0; Num 32];
      If (Op1 "!" (Op2 "!=" (Var "keypair") (Num 0))) (seq [Prim "callback" [];
      Return (Num 0)]) (Skip);
      Prim "memcpy" [Var "seckey"; Op2 "[]" (Op1 ".data" (Var "keypair")) (Num 0); Num 32];
      Return (Num 1)]).
(** src/modules/extrakeys/main_impl.h:156-159 secp256k1_keypair_save *)
Definition c64_keypair_save : func := mkfunc "secp256k1_keypair_save" [("keypair", false); ("sk", false); ("pk", false)] false
  (seq [Call "_" "secp256k1_scalar_get_b32" [Op2 "[]" (Op1 ".data" (Var "keypair")) (Num 0); Var "sk"];
      Call "_" "secp256k1_pubkey_save" [Op2 "[]" (Op1 ".data" (Var "keypair")) (Num 32); Var "pk"]]).
(** src/modules/extrakeys/main_impl.h:196-212 secp256k1_keypair_create *)
Definition c64_keypair_create : func := mkfunc "secp256k1_keypair_create" [("ctx", false); ("keypair", false); ("seckey32", false)] true
  (seq [Assign "ret" (Num 0);
      If (Op1 "!" (Op2 "!=" (Var "keypair") (Num 0))) (seq [Prim "callback" [];
      Return (Num 0)]) (Skip);
      Prim "memset" [Var "keypair"; Num 0; Op0 "sizeof ( * keypair )"];
      Call "t1" "secp256k1_ecmult_gen_context_is_built" [Op1 ".ecmult_gen_ctx" (Var "ctx")];
      If (Op1 "!" (Var "t1")) (seq [Prim "callback" [];
      Return (Num 0)]) (Skip);
      If (Op1 "!" (Op2 "!=" (Var "seckey32") (Num 0))) (seq [Prim "callback" [];
      Return (Num 0)]) (Skip);
      Call "t2" "secp256k1_ec_pubkey_create_helper" [Op1 ".ecmult_gen_ctx" (Var "ctx"); Addr "sk"; Addr "pk"; Var "seckey32"];
      Assign "ret" (Var "t2");
      Call "_" "secp256k1_keypair_save" [Var "keypair"; Addr "sk"; Addr "pk"];
      Call "_" "secp256k1_memczero" [Var "keypair"; Op0 "sizeof ( * keypair )"; Op1 "!" (Var "ret")];
      Call "_" "secp256k1_scalar_clear" [Addr "sk"];
      Return (Var "ret")]).
(** src/field_5x52_impl.h:435-441 secp256k1_fe_impl_from_storage@PP *)
Definition c64_fe_impl_from_storage__PP : func := mkfunc "secp256k1_fe_impl_from_storage@PP" [("r", false); ("a", false)] false
  (seq [Store Pub (Op2 "[]" (Op1 ".n" (Var "r")) (Num 0)) (Op2 "&" (Load Pub (Op2 "[]" (Op1 ".n" (Var "a")) (Num 0))) (Num 4503599627370495));
      Store Pub (Op2 "[]" (Op1 ".n" (Var "r")) (Num 1)) (Op2 "|" (Op2 ">>" (Load Pub (Op2 "[]" (Op1 ".n" (Var "a")) (Num 0))) (Num 52)) (Op2 "&" (Op2 "<<" (Load Pub (Op2 "[]" (Op1 ".n" (Var "a")) (Num 1))) (Num 12)) (Num 4503599627370495)));
      Store Pub (Op2 "[]" (Op1 ".n" (Var "r")) (Num 2)) (Op2 "|" (Op2 ">>" (Load Pub (Op2 "[]" (Op1 ".n" (Var "a")) (Num 1))) (Num 40)) (Op2 "&" (Op2 "<<" (Load Pub (Op2 "[]" (Op1 ".n" (Var "a")) (Num 2))) (Num 24)) (Num 4503599627370495)));
      Store Pub (Op2 "[]" (Op1 ".n" (Var "r")) (Num 3)) (Op2 "|" (Op2 ">>" (Load Pub (Op2 "[]" (Op1 ".n" (Var "a")) (Num 2))) (Num 28)) (Op2 "&" (Op2 "<<" (Load Pub (Op2 "[]" (Op1 ".n" (Var "a")) (Num 3))) (Num 36)) (Num 4503599627370495)));
      Store Pub (Op2 "[]" (Op1 ".n" (Var "r")) (Num 4)) (Op2 ">>" (Load Pub (Op2 "[]" (Op1 ".n" (Var "a")) (Num 3))) (Num 16))]).
(** src/group_impl.h:890-896 secp256k1_ge_from_storage@PP *)
Definition c64_ge_from_storage__PP : func := mkfunc "secp256k1_ge_from_storage@PP" [("r", false); ("a", false)] false
  (seq [Call "_" "secp256k1_fe_impl_from_storage@PP" [Op1 ".x" (Var "r"); Op1 ".x" (Var "a")];
      Call "_" "secp256k1_fe_impl_from_storage@PP" [Op1 ".y" (Var "r"); Op1 ".y" (Var "a")];
      Store Pub (Op1 ".infinity" (Var "r")) (Num 0)]).
(** src/group_impl.h:987-993 secp256k1_ge_from_bytes@PP *)
Definition c64_ge_from_bytes__PP : func := mkfunc "secp256k1_ge_from_bytes@PP" [("r", false); ("buf", false)] false
  (seq [PubPrim "_" "memcpy" [Addr "s"; Var "buf"; Num 64];
      Call "_" "secp256k1_ge_from_storage@PP" [Var "r"; Addr "s"]]).
(** src/field_5x52_impl.h:206-209 secp256k1_fe_impl_is_zero@P *)
Definition c64_fe_impl_is_zero__P : func := mkfunc "secp256k1_fe_impl_is_zero@P" [("a", false)] false
  (seq [Assign "t" (Op1 ".n" (Var "a"));
      Return (Op2 "==" (Op2 "|" (Op2 "|" (Op2 "|" (Op2 "|" (Load Pub (Op2 "[]" (Var "t") (Num 0))) (Load Pub (Op2 "[]" (Var "t") (Num 1)))) (Load Pub (Op2 "[]" (Var "t") (Num 2)))) (Load Pub (Op2 "[]" (Var "t") (Num 3)))) (Load Pub (Op2 "[]" (Var "t") (Num 4)))) (Num 0))]).
(** src/secp256k1.c:240-244 secp256k1_pubkey_load@SPP *)
Definition c64_pubkey_load__SPP : func := mkfunc "secp256k1_pubkey_load@SPP" [("ctx", false); ("ge", false); ("pubkey", false)] false
  (seq [Call "_" "secp256k1_ge_from_bytes@PP" [Var "ge"; Op1 ".data" (Var "pubkey")];
      Call "t1" "secp256k1_fe_impl_is_zero@P" [Op1 ".x" (Var "ge")];
      If (Op1 "!" (Op1 "!" (Var "t1"))) (seq [Prim "callback" [];
      Return (Num 0)]) (Skip);
      Return (Num 1)]).
(** src/modules/extrakeys/main_impl.h:162-171 secp256k1_keypair_seckey_load *)
Definition c64_keypair_seckey_load : func := mkfunc "secp256k1_keypair_seckey_load" [("ctx", false); ("sk", false); ("keypair", false)] false
  (seq [Call "t1" "secp256k1_scalar_set_b32_seckey" [Var "sk"; Op2 "[]" (Op1 ".data" (Var "keypair")) (Num 0)];
      Assign "ret" (Var "t1");
      Assign "ret" (Reveal "secp256k1_keypair_seckey_load: ret" (Var "ret"));
      If (Op1 "!" (Var "ret")) (seq [Prim "callback" [];
      Return (Num 0)]) (Skip);
      Return (Var "ret")]).
(** src/modules/extrakeys/main_impl.h:176-194 secp256k1_keypair_load@SSPS *)
Definition c64_keypair_load__SSPS : func := mkfunc "secp256k1_keypair_load@SSPS" [("ctx", false); ("sk", false); ("pk", false); ("keypair", false)] false
  (seq [Assign "pubkey" (Op2 "[]" (Op1 ".data" (Var "keypair")) (Num 32));
      Expose "secp256k1_keypair_load: pubkey" (Var "pubkey") (Op0 "sizeof ( * pubkey )");
      Call "t1" "secp256k1_pubkey_load@SPP" [Var "ctx"; Var "pk"; Var "pubkey"];
      Assign "ret" (Var "t1");
      If (Op2 "!=" (Var "sk") (Num 0)) (seq [If (Var "ret") (seq [Call "t3" "secp256k1_keypair_seckey_load" [Var "ctx"; Var "sk"; Var "keypair"];
      Assign "t2" (Op2 "!=" (Var "t3") (Num 0))]) (Assign "t2" (Num 0));
      Assign "ret" (Var "t2")]) (Skip);
      If (Op1 "!" (Var "ret")) (seq [PubPrim "_" "copy" [Var "pk"; Op0 "secp256k1_ge_const_g"];
      If (Op2 "!=" (Var "sk") (Num 0)) (Prim "copy" [Var "sk"; Op0 "secp256k1_scalar_one"]) (Skip)]) (Skip);
      Return (Var "ret")]).
(** src/field_5x52_impl.h:211-213 secp256k1_fe_impl_is_odd@P *)
Definition c64_fe_impl_is_odd__P : func := mkfunc "secp256k1_fe_impl_is_odd@P" [("a", false)] false
  (Return (Op2 "&" (Load Pub (Op2 "[]" (Op1 ".n" (Var "a")) (Num 0))) (Num 1))).
(** src/field_5x52_impl.h:306-319 secp256k1_fe_impl_negate_unchecked@PP *)
Definition c64_fe_impl_negate_unchecked__PP : func := mkfunc "secp256k1_fe_impl_negate_unchecked@PP" [("r", false); ("a", false); ("m", false)] false
  (seq [Store Pub (Op2 "[]" (Op1 ".n" (Var "r")) (Num 0)) (Op2 "-" (Op2 "*" (Op2 "*" (Num 4503595332402223) (Num 2)) (Op2 "+" (Var "m") (Num 1))) (Load Pub (Op2 "[]" (Op1 ".n" (Var "a")) (Num 0))));
      Store Pub (Op2 "[]" (Op1 ".n" (Var "r")) (Num 1)) (Op2 "-" (Op2 "*" (Op2 "*" (Num 4503599627370495) (Num 2)) (Op2 "+" (Var "m") (Num 1))) (Load Pub (Op2 "[]" (Op1 ".n" (Var "a")) (Num 1))));
      Store Pub (Op2 "[]" (Op1 ".n" (Var "r")) (Num 2)) (Op2 "-" (Op2 "*" (Op2 "*" (Num 4503599627370495) (Num 2)) (Op2 "+" (Var "m") (Num 1))) (Load Pub (Op2 "[]" (Op1 ".n" (Var "a")) (Num 2))));
      Store Pub (Op2 "[]" (Op1 ".n" (Var "r")) (Num 3)) (Op2 "-" (Op2 "*" (Op2 "*" (Num 4503599627370495) (Num 2)) (Op2 "+" (Var "m") (Num 1))) (Load Pub (Op2 "[]" (Op1 ".n" (Var "a")) (Num 3))));
      Store Pub (Op2 "[]" (Op1 ".n" (Var "r")) (Num 4)) (Op2 "-" (Op2 "*" (Op2 "*" (Num 281474976710655) (Num 2)) (Op2 "+" (Var "m") (Num 1))) (Load Pub (Op2 "[]" (Op1 ".n" (Var "a")) (Num 4))))]).
(** src/modules/extrakeys/main_impl.h:88-97 secp256k1_extrakeys_ge_even_y@P *)
Definition c64_extrakeys_ge_even_y__P : func := mkfunc "secp256k1_extrakeys_ge_even_y@P" [("r", false)] false
  (seq [Assign "y_parity" (Num 0);
      Call "t1" "secp256k1_fe_impl_is_odd@P" [Op1 ".y" (Var "r")];
      If (Var "t1") (seq [Call "_" "secp256k1_fe_impl_negate_unchecked@PP" [Op1 ".y" (Var "r"); Op1 ".y" (Var "r"); Num 1];
      Assign "y_parity" (Num 1)]) (Skip);
      Return (Var "y_parity")]).
(** src/util.h:416-425 secp256k1_read_be64@P *)
Definition c64_read_be64__P : func := mkfunc "secp256k1_read_be64@P" [("p", false)] false
  (Return (Op2 "|" (Op2 "|" (Op2 "|" (Op2 "|" (Op2 "|" (Op2 "|" (Op2 "|" (Op2 "<<" (Op1 "(uint64_t)" (Load Pub (Op2 "[]" (Var "p") (Num 0)))) (Num 56)) (Op2 "<<" (Op1 "(uint64_t)" (Load Pub (Op2 "[]" (Var "p") (Num 1)))) (Num 48))) (Op2 "<<" (Op1 "(uint64_t)" (Load Pub (Op2 "[]" (Var "p") (Num 2)))) (Num 40))) (Op2 "<<" (Op1 "(uint64_t)" (Load Pub (Op2 "[]" (Var "p") (Num 3)))) (Num 32))) (Op2 "<<" (Op1 "(uint64_t)" (Load Pub (Op2 "[]" (Var "p") (Num 4)))) (Num 24))) (Op2 "<<" (Op1 "(uint64_t)" (Load Pub (Op2 "[]" (Var "p") (Num 5)))) (Num 16))) (Op2 "<<" (Op1 "(uint64_t)" (Load Pub (Op2 "[]" (Var "p") (Num 6)))) (Num 8))) (Op1 "(uint64_t)" (Load Pub (Op2 "[]" (Var "p") (Num 7)))))).
(** src/scalar_4x64_impl.h:144-156 secp256k1_scalar_set_b32@SPS *)
Definition c64_scalar_set_b32__SPS : func := mkfunc "secp256k1_scalar_set_b32@SPS" [("r", false); ("b32", false); ("overflow", false)] false
  (seq [Call "t1" "secp256k1_read_be64@P" [Op2 "[]" (Var "b32") (Num 24)];
      Store Sec (Op2 "[]" (Op1 ".d" (Var "r")) (Num 0)) (Var "t1");
      Call "t2" "secp256k1_read_be64@P" [Op2 "[]" (Var "b32") (Num 16)];
      Store Sec (Op2 "[]" (Op1 ".d" (Var "r")) (Num 1)) (Var "t2");
      Call "t3" "secp256k1_read_be64@P" [Op2 "[]" (Var "b32") (Num 8)];
      Store Sec (Op2 "[]" (Op1 ".d" (Var "r")) (Num 2)) (Var "t3");
      Call "t4" "secp256k1_read_be64@P" [Op2 "[]" (Var "b32") (Num 0)];
      Store Sec (Op2 "[]" (Op1 ".d" (Var "r")) (Num 3)) (Var "t4");
      Call "t5" "secp256k1_scalar_check_overflow" [Var "r"];
      Call "t6" "secp256k1_scalar_reduce" [Var "r"; Var "t5"];
      Assign "over" (Var "t6");
      If (Var "overflow") (Store Sec (Var "overflow") (Var "over")) (Skip)]).
(** src/secp256k1.c:653-662 secp256k1_ec_seckey_tweak_add_helper@SP *)
Definition c64_ec_seckey_tweak_add_helper__SP : func := mkfunc "secp256k1_ec_seckey_tweak_add_helper@SP" [("sec", false); ("tweak32", false)] true
  (seq [Store Sec (Addr "overflow") (Num 0);
      Assign "ret" (Num 0);
      Call "_" "secp256k1_scalar_set_b32@SPS" [Addr "term"; Var "tweak32"; Addr "overflow"];
      Call "t1" "secp256k1_eckey_privkey_tweak_add" [Var "sec"; Addr "term"];
      Assign "ret" (Op2 "&" (Op1 "!" (Load Sec (Addr "overflow"))) (Var "t1"));
      Call "_" "secp256k1_scalar_clear" [Addr "term"];
      Return (Var "ret")]).
(** src/scalar_4x64_impl.h:62-72 secp256k1_scalar_check_overflow@P *)
Definition c64_scalar_check_overflow__P : func := mkfunc "secp256k1_scalar_check_overflow@P" [("a", false)] false
  (seq [Assign "yes" (Num 0);
      Assign "no" (Num 0);
      Assign "no" (Op2 "|" (Var "no") (Op2 "<" (Load Pub (Op2 "[]" (Op1 ".d" (Var "a")) (Num 3))) (Op1 "(uint64_t)" (Num 18446744073709551615))));
      Assign "no" (Op2 "|" (Var "no") (Op2 "<" (Load Pub (Op2 "[]" (Op1 ".d" (Var "a")) (Num 2))) (Op1 "(uint64_t)" (Num 18446744073709551614))));
      Assign "yes" (Op2 "|" (Var "yes") (Op2 "&" (Op2 ">" (Load Pub (Op2 "[]" (Op1 ".d" (Var "a")) (Num 2))) (Op1 "(uint64_t)" (Num 18446744073709551614))) (Op1 "~" (Var "no"))));
      Assign "no" (Op2 "|" (Var "no") (Op2 "<" (Load Pub (Op2 "[]" (Op1 ".d" (Var "a")) (Num 1))) (Op1 "(uint64_t)" (Num 13451932020343611451))));
      Assign "yes" (Op2 "|" (Var "yes") (Op2 "&" (Op2 ">" (Load Pub (Op2 "[]" (Op1 ".d" (Var "a")) (Num 1))) (Op1 "(uint64_t)" (Num 13451932020343611451))) (Op1 "~" (Var "no"))));
      Assign "yes" (Op2 "|" (Var "yes") (Op2 "&" (Op2 ">=" (Load Pub (Op2 "[]" (Op1 ".d" (Var "a")) (Num 0))) (Op1 "(uint64_t)" (Num 13822214165235122497))) (Op1 "~" (Var "no"))));
      Return (Var "yes")]).
(** src/int128_native_impl.h:36-38 secp256k1_u128_from_u64@P *)
Definition c64_u128_from_u64__P : func := mkfunc "secp256k1_u128_from_u64@P" [("r", false); ("a", false)] false
  (Store Pub (Var "r") (Var "a")).
(** src/int128_native_impl.h:19-21 secp256k1_u128_accum_u64@P *)
Definition c64_u128_accum_u64__P : func := mkfunc "secp256k1_u128_accum_u64@P" [("r", false); ("a", false)] false
  (Store Pub (Var "r") (Op2 "+" (Load Pub (Var "r")) (Var "a"))).
(** src/int128_native_impl.h:28-30 secp256k1_u128_to_u64@P *)
Definition c64_u128_to_u64__P : func := mkfunc "secp256k1_u128_to_u64@P" [("a", false)] false
  (Return (Op1 "(uint64_t)" (Load Pub (Var "a")))).
(** src/int128_native_impl.h:23-26 secp256k1_u128_rshift@P *)
Definition c64_u128_rshift__P : func := mkfunc "secp256k1_u128_rshift@P" [("r", false); ("n", false)] false
  (Store Pub (Var "r") (Op2 ">>" (Load Pub (Var "r")) (Var "n"))).
(** src/scalar_4x64_impl.h:74-92 secp256k1_scalar_reduce@P *)
Definition c64_scalar_reduce__P : func := mkfunc "secp256k1_scalar_reduce@P" [("r", false); ("overflow", false)] false
  (seq [Call "_" "secp256k1_u128_from_u64@P" [Addr "t"; Load Pub (Op2 "[]" (Op1 ".d" (Var "r")) (Num 0))];
      Call "_" "secp256k1_u128_accum_u64@P" [Addr "t"; Op2 "*" (Var "overflow") (Op2 "+" (Op1 "~" (Op1 "(uint64_t)" (Num 13822214165235122497))) (Num 1))];
      Call "t1" "secp256k1_u128_to_u64@P" [Addr "t"];
      Store Pub (Op2 "[]" (Op1 ".d" (Var "r")) (Num 0)) (Var "t1");
      Call "_" "secp256k1_u128_rshift@P" [Addr "t"; Num 64];
      Call "_" "secp256k1_u128_accum_u64@P" [Addr "t"; Load Pub (Op2 "[]" (Op1 ".d" (Var "r")) (Num 1))];
      Call "_" "secp256k1_u128_accum_u64@P" [Addr "t"; Op2 "*" (Var "overflow") (Op1 "~" (Op1 "(uint64_t)" (Num 13451932020343611451)))];
      Call "t2" "secp256k1_u128_to_u64@P" [Addr "t"];
      Store Pub (Op2 "[]" (Op1 ".d" (Var "r")) (Num 1)) (Var "t2");
      Call "_" "secp256k1_u128_rshift@P" [Addr "t"; Num 64];
      Call "_" "secp256k1_u128_accum_u64@P" [Addr "t"; Load Pub (Op2 "[]" (Op1 ".d" (Var "r")) (Num 2))];
      Call "_" "secp256k1_u128_accum_u64@P" [Addr "t"; Op2 "*" (Var "overflow") (Num 1)];
      Call "t3" "secp256k1_u128_to_u64@P" [Addr "t"];
      Store Pub (Op2 "[]" (Op1 ".d" (Var "r")) (Num 2)) (Var "t3");
      Call "_" "secp256k1_u128_rshift@P" [Addr "t"; Num 64];
      Call "_" "secp256k1_u128_accum_u64@P" [Addr "t"; Load Pub (Op2 "[]" (Op1 ".d" (Var "r")) (Num 3))];
      Call "t4" "secp256k1_u128_to_u64@P" [Addr "t"];
      Store Pub (Op2 "[]" (Op1 ".d" (Var "r")) (Num 3)) (Var "t4");
      Return (Var "overflow")]).
(** src/scalar_4x64_impl.h:144-156 secp256k1_scalar_set_b32@PPP *)
Definition c64_scalar_set_b32__PPP : func := mkfunc "secp256k1_scalar_set_b32@PPP" [("r", false); ("b32", false); ("overflow", false)] false
  (seq [Call "t1" "secp256k1_read_be64@P" [Op2 "[]" (Var "b32") (Num 24)];
      Store Pub (Op2 "[]" (Op1 ".d" (Var "r")) (Num 0)) (Var "t1");
      Call "t2" "secp256k1_read_be64@P" [Op2 "[]" (Var "b32") (Num 16)];
      Store Pub (Op2 "[]" (Op1 ".d" (Var "r")) (Num 1)) (Var "t2");
      Call "t3" "secp256k1_read_be64@P" [Op2 "[]" (Var "b32") (Num 8)];
      Store Pub (Op2 "[]" (Op1 ".d" (Var "r")) (Num 2)) (Var "t3");
      Call "t4" "secp256k1_read_be64@P" [Op2 "[]" (Var "b32") (Num 0)];
      Store Pub (Op2 "[]" (Op1 ".d" (Var "r")) (Num 3)) (Var "t4");
      Call "t5" "secp256k1_scalar_check_overflow@P" [Var "r"];
      Call "t6" "secp256k1_scalar_reduce@P" [Var "r"; Var "t5"];
      Assign "over" (Var "t6");
      If (Var "overflow") (Store Pub (Var "overflow") (Var "over")) (Skip)]).
(** src/secp256k1.c:680-685 secp256k1_ec_pubkey_tweak_add_helper@PP *)
Definition c64_ec_pubkey_tweak_add_helper__PP : func := mkfunc "secp256k1_ec_pubkey_tweak_add_helper@PP" [("p", false); ("tweak32", false)] false
  (seq [Store Pub (Addr "overflow") (Num 0);
      Call "_" "secp256k1_scalar_set_b32@PPP" [Addr "term"; Var "tweak32"; Addr "overflow"];
      If (Op1 "!" (Load Pub (Addr "overflow"))) (seq [PubPrim "t2" "secp256k1_eckey_pubkey_tweak_add" [Var "p"; Addr "term"];
      Assign "t1" (Op2 "!=" (Var "t2") (Num 0))]) (Assign "t1" (Num 0));
      Return (Var "t1")]).
(** src/group_impl.h:877-888 secp256k1_ge_to_storage@SP *)
Definition c64_ge_to_storage__SP : func := mkfunc "secp256k1_ge_to_storage@SP" [("r", false); ("a", false)] false
  (seq [Prim "copy" [Addr "x"; Op1 ".x" (Var "a")];
      Call "_" "secp256k1_fe_impl_normalize" [Addr "x"];
      Prim "copy" [Addr "y"; Op1 ".y" (Var "a")];
      Call "_" "secp256k1_fe_impl_normalize" [Addr "y"];
      Call "_" "secp256k1_fe_impl_to_storage" [Op1 ".x" (Var "r"); Addr "x"];
      Call "_" "secp256k1_fe_impl_to_storage" [Op1 ".y" (Var "r"); Addr "y"]]).
(** src/group_impl.h:975-985 secp256k1_ge_to_bytes@SP *)
Definition c64_ge_to_bytes__SP : func := mkfunc "secp256k1_ge_to_bytes@SP" [("buf", false); ("a", false)] false
  (seq [Call "_" "secp256k1_ge_to_storage@SP" [Addr "s"; Var "a"];
      Prim "memcpy" [Var "buf"; Addr "s"; Num 64]]).
(** src/secp256k1.c:246-248 secp256k1_pubkey_save@SP *)
Definition c64_pubkey_save__SP : func := mkfunc "secp256k1_pubkey_save@SP" [("pubkey", false); ("ge", false)] false
  (Call "_" "secp256k1_ge_to_bytes@SP" [Op1 ".data" (Var "pubkey"); Var "ge"]).
(** src/modules/extrakeys/main_impl.h:156-159 secp256k1_keypair_save@SSP *)
Definition c64_keypair_save__SSP : func := mkfunc "secp256k1_keypair_save@SSP" [("keypair", false); ("sk", false); ("pk", false)] false
  (seq [Call "_" "secp256k1_scalar_get_b32" [Op2 "[]" (Op1 ".data" (Var "keypair")) (Num 0); Var "sk"];
      Call "_" "secp256k1_pubkey_save@SP" [Op2 "[]" (Op1 ".data" (Var "keypair")) (Num 32); Var "pk"]]).
(** src/modules/extrakeys/main_impl.h:255-283 secp256k1_keypair_xonly_tweak_add *)
Definition c64_keypair_xonly_tweak_add : func := mkfunc "secp256k1_keypair_xonly_tweak_add" [("ctx", false); ("keypair", false); ("tweak32", false)] false
  (seq [If (Op1 "!" (Op2 "!=" (Var "keypair") (Num 0))) (seq [Prim "callback" [];
      Return (Num 0)]) (Skip);
      If (Op1 "!" (Op2 "!=" (Var "tweak32") (Num 0))) (seq [Prim "callback" [];
      Return (Num 0)]) (Skip);
      Call "t1" "secp256k1_keypair_load@SSPS" [Var "ctx"; Addr "sk"; Addr "pk"; Var "keypair"];
      Assign "ret" (Var "t1");
      Prim "memset" [Var "keypair"; Num 0; Op0 "sizeof ( * keypair )"];
      Call "t2" "secp256k1_extrakeys_ge_even_y@P" [Addr "pk"];
      Assign "y_parity" (Var "t2");
      If (Op2 "==" (Var "y_parity") (Num 1)) (Call "_" "secp256k1_scalar_negate" [Addr "sk"; Addr "sk"]) (Skip);
      Call "t3" "secp256k1_ec_seckey_tweak_add_helper@SP" [Addr "sk"; Var "tweak32"];
      Assign "ret" (Op2 "&" (Var "ret") (Var "t3"));
      Call "t4" "secp256k1_ec_pubkey_tweak_add_helper@PP" [Addr "pk"; Var "tweak32"];
      Assign "ret" (Op2 "&" (Var "ret") (Var "t4"));
      Assign "ret" (Reveal "secp256k1_keypair_xonly_tweak_add: ret" (Var "ret"));
      If (Var "ret") (Call "_" "secp256k1_keypair_save@SSP" [Var "keypair"; Addr "sk"; Addr "pk"]) (Skip);
      Call "_" "secp256k1_scalar_clear" [Addr "sk"];
      Return (Var "ret")]).
(** src/secp256k1.c:466-469 buffer_append *)
Definition c64_buffer_append : func := mkfunc "buffer_append" [("buf", false); ("offset", false); ("data", false); ("len", false)] false
  (seq [Prim "memcpy" [Op2 "+" (Var "buf") (Load Pub (Var "offset")); Var "data"; Var "len"];
      Store Pub (Var "offset") (Op2 "+" (Load Pub (Var "offset")) (Var "len"))]).
(** src/secp256k1.c:471-505 nonce_function_rfc6979 *)
Definition c64_nonce_function_rfc6979 : func := mkfunc "nonce_function_rfc6979" [("nonce32", false); ("msg32", false); ("key32", false); ("algo16", false); ("data", false); ("counter", false)] false
  (seq [Store Pub (Addr "offset") (Num 0);
      Call "_" "secp256k1_scalar_set_b32" [Addr "msg"; Var "msg32"; Num 0];
      Call "_" "secp256k1_scalar_get_b32" [Addr "msgmod32"; Addr "msg"];
      Call "_" "buffer_append" [Addr "keydata"; Addr "offset"; Var "key32"; Num 32];
      Call "_" "buffer_append" [Addr "keydata"; Addr "offset"; Addr "msgmod32"; Num 32];
      If (Op2 "!=" (Var "data") (Num 0)) (Call "_" "buffer_append" [Addr "keydata"; Addr "offset"; Var "data"; Num 32]) (Skip);
      If (Op2 "!=" (Var "algo16") (Num 0)) (Call "_" "buffer_append" [Addr "keydata"; Addr "offset"; Var "algo16"; Num 16]) (Skip);
      Call "_" "secp256k1_rfc6979_hmac_sha256_initialize" [Addr "rng"; Addr "keydata"; Load Pub (Addr "offset")];
      Assign "i" (Num 0);
      Loop (If (Op2 "<=" (Var "i") (Var "counter")) (seq [Call "_" "secp256k1_rfc6979_hmac_sha256_generate" [Addr "rng"; Var "nonce32"; Num 32];
      Assign "i" (Op2 "+" (Var "i") (Num 1))]) (Break));
      Call "_" "secp256k1_rfc6979_hmac_sha256_finalize" [Addr "rng"];
      Prim "secp256k1_memclear" [Addr "keydata"; Op0 "sizeof ( keydata )"];
      Call "_" "secp256k1_rfc6979_hmac_sha256_clear" [Addr "rng"];
      Return (Num 1)]).
(** src/field_5x52_impl.h:271-304 secp256k1_fe_impl_get_b32 *)
Definition c64_fe_impl_get_b32 : func := mkfunc "secp256k1_fe_impl_get_b32" [("r", false); ("a", false)] false
  (seq [Store Sec (Op2 "[]" (Var "r") (Num 0)) (Op2 "&" (Op2 ">>" (Load Sec (Op2 "[]" (Op1 ".n" (Var "a")) (Num 4))) (Num 40)) (Num 255));
      Store Sec (Op2 "[]" (Var "r") (Num 1)) (Op2 "&" (Op2 ">>" (Load Sec (Op2 "[]" (Op1 ".n" (Var "a")) (Num 4))) (Num 32)) (Num 255));
      Store Sec (Op2 "[]" (Var "r") (Num 2)) (Op2 "&" (Op2 ">>" (Load Sec (Op2 "[]" (Op1 ".n" (Var "a")) (Num 4))) (Num 24)) (Num 255));
      Store Sec (Op2 "[]" (Var "r") (Num 3)) (Op2 "&" (Op2 ">>" (Load Sec (Op2 "[]" (Op1 ".n" (Var "a")) (Num 4))) (Num 16)) (Num 255));
      Store Sec (Op2 "[]" (Var "r") (Num 4)) (Op2 "&" (Op2 ">>" (Load Sec (Op2 "[]" (Op1 ".n" (Var "a")) (Num 4))) (Num 8)) (Num 255));
      Store Sec (Op2 "[]" (Var "r") (Num 5)) (Op2 "&" (Load Sec (Op2 "[]" (Op1 ".n" (Var "a")) (Num 4))) (Num 255));
      Store Sec (Op2 "[]" (Var "r") (Num 6)) (Op2 "&" (Op2 ">>" (Load Sec (Op2 "[]" (Op1 ".n" (Var "a")) (Num 3))) (Num 44)) (Num 255));
      Store Sec (Op2 "[]" (Var "r") (Num 7)) (Op2 "&" (Op2 ">>" (Load Sec (Op2 "[]" (Op1 ".n" (Var "a")) (Num 3))) (Num 36)) (Num 255));
      Store Sec (Op2 "[]" (Var "r") (Num 8)) (Op2 "&" (Op2 ">>" (Load Sec (Op2 "[]" (Op1 ".n" (Var "a")) (Num 3))) (Num 28)) (Num 255));
      Store Sec (Op2 "[]" (Var "r") (Num 9)) (Op2 "&" (Op2 ">>" (Load Sec (Op2 "[]" (Op1 ".n" (Var "a")) (Num 3))) (Num 20)) (Num 255));
      Store Sec (Op2 "[]" (Var "r") (Num 10)) (Op2 "&" (Op2 ">>" (Load Sec (Op2 "[]" (Op1 ".n" (Var "a")) (Num 3))) (Num 12)) (Num 255));
      Store Sec (Op2 "[]" (Var "r") (Num 11)) (Op2 "&" (Op2 ">>" (Load Sec (Op2 "[]" (Op1 ".n" (Var "a")) (Num 3))) (Num 4)) (Num 255));
      Store Sec (Op2 "[]" (Var "r") (Num 12)) (Op2 "|" (Op2 "&" (Op2 ">>" (Load Sec (Op2 "[]" (Op1 ".n" (Var "a")) (Num 2))) (Num 48)) (Num 15)) (Op2 "<<" (Op2 "&" (Load Sec (Op2 "[]" (Op1 ".n" (Var "a")) (Num 3))) (Num 15)) (Num 4)));
      Store Sec (Op2 "[]" (Var "r") (Num 13)) (Op2 "&" (Op2 ">>" (Load Sec (Op2 "[]" (Op1 ".n" (Var "a")) (Num 2))) (Num 40)) (Num 255));
      Store Sec (Op2 "[]" (Var "r") (Num 14)) (Op2 "&" (Op2 ">>" (Load Sec (Op2 "[]" (Op1 ".n" (Var "a")) (Num 2))) (Num 32)) (Num 255));
      Store Sec (Op2 "[]" (Var "r") (Num 15)) (Op2 "&" (Op2 ">>" (Load Sec (Op2 "[]" (Op1 ".n" (Var "a")) (Num 2))) (Num 24)) (Num 255));
      Store Sec (Op2 "[]" (Var "r") (Num 16)) (Op2 "&" (Op2 ">>" (Load Sec (Op2 "[]" (Op1 ".n" (Var "a")) (Num 2))) (Num 16)) (Num 255));
      Store Sec (Op2 "[]" (Var "r") (Num 17)) (Op2 "&" (Op2 ">>" (Load Sec (Op2 "[]" (Op1 ".n" (Var "a")) (Num 2))) (Num 8)) (Num 255));
      Store Sec (Op2 "[]" (Var "r") (Num 18)) (Op2 "&" (Load Sec (Op2 "[]" (Op1 ".n" (Var "a")) (Num 2))) (Num 255));
      Store Sec (Op2 "[]" (Var "r") (Num 19)) (Op2 "&" (Op2 ">>" (Load Sec (Op2 "[]" (Op1 ".n" (Var "a")) (Num 1))) (Num 44)) (Num 255));
      Store Sec (Op2 "[]" (Var "r") (Num 20)) (Op2 "&" (Op2 ">>" (Load Sec (Op2 "[]" (Op1 ".n" (Var "a")) (Num 1))) (Num 36)) (Num 255));
      Store Sec (Op2 "[]" (Var "r") (Num 21)) (Op2 "&" (Op2 ">>" (Load Sec (Op2 "[]" (Op1 ".n" (Var "a")) (Num 1))) (Num 28)) (Num 255));
      Store Sec (Op2 "[]" (Var "r") (Num 22)) (Op2 "&" (Op2 ">>" (Load Sec (Op2 "[]" (Op1 ".n" (Var "a")) (Num 1))) (Num 20)) (Num 255));
      Store Sec (Op2 "[]" (Var "r") (Num 23)) (Op2 "&" (Op2 ">>" (Load Sec (Op2 "[]" (Op1 ".n" (Var "a")) (Num 1))) (Num 12)) (Num 255));
      Store Sec (Op2 "[]" (Var "r") (Num 24)) (Op2 "&" (Op2 ">>" (Load Sec (Op2 "[]" (Op1 ".n" (Var "a")) (Num 1))) (Num 4)) (Num 255));
      Store Sec (Op2 "[]" (Var "r") (Num 25)) (Op2 "|" (Op2 "&" (Op2 ">>" (Load Sec (Op2 "[]" (Op1 ".n" (Var "a")) (Num 0))) (Num 48)) (Num 15)) (Op2 "<<" (Op2 "&" (Load Sec (Op2 "[]" (Op1 ".n" (Var "a")) (Num 1))) (Num 15)) (Num 4)));
      Store Sec (Op2 "[]" (Var "r") (Num 26)) (Op2 "&" (Op2 ">>" (Load Sec (Op2 "[]" (Op1 ".n" (Var "a")) (Num 0))) (Num 40)) (Num 255));
      Store Sec (Op2 "[]" (Var "r") (Num 27)) (Op2 "&" (Op2 ">>" (Load Sec (Op2 "[]" (Op1 ".n" (Var "a")) (Num 0))) (Num 32)) (Num 255));
      Store Sec (Op2 "[]" (Var "r") (Num 28)) (Op2 "&" (Op2 ">>" (Load Sec (Op2 "[]" (Op1 ".n" (Var "a")) (Num 0))) (Num 24)) (Num 255));
      Store Sec (Op2 "[]" (Var "r") (Num 29)) (Op2 "&" (Op2 ">>" (Load Sec (Op2 "[]" (Op1 ".n" (Var "a")) (Num 0))) (Num 16)) (Num 255));
      Store Sec (Op2 "[]" (Var "r") (Num 30)) (Op2 "&" (Op2 ">>" (Load Sec (Op2 "[]" (Op1 ".n" (Var "a")) (Num 0))) (Num 8)) (Num 255));
      Store Sec (Op2 "[]" (Var "r") (Num 31)) (Op2 "&" (Load Sec (Op2 "[]" (Op1 ".n" (Var "a")) (Num 0))) (Num 255))]).
(** src/field_5x52_impl.h:211-213 secp256k1_fe_impl_is_odd *)
Definition c64_fe_impl_is_odd : func := mkfunc "secp256k1_fe_impl_is_odd" [("a", false)] true
  (Return (Op2 "&" (Load Sec (Op2 "[]" (Op1 ".n" (Var "a")) (Num 0))) (Num 1))).
(** src/scalar_4x64_impl.h:947-957 secp256k1_scalar_to_signed62 *)
Definition c64_scalar_to_signed62 : func := mkfunc "secp256k1_scalar_to_signed62" [("r", false); ("a", false)] false
  (seq [Assign "M62" (Op2 ">>" (Num 18446744073709551615) (Num 2));
      Assign "a0" (Load Sec (Op2 "[]" (Op1 ".d" (Var "a")) (Num 0)));
      Assign "a1" (Load Sec (Op2 "[]" (Op1 ".d" (Var "a")) (Num 1)));
      Assign "a2" (Load Sec (Op2 "[]" (Op1 ".d" (Var "a")) (Num 2)));
      Assign "a3" (Load Sec (Op2 "[]" (Op1 ".d" (Var "a")) (Num 3)));
      Store Sec (Op2 "[]" (Op1 ".v" (Var "r")) (Num 0)) (Op2 "&" (Var "a0") (Var "M62"));
      Store Sec (Op2 "[]" (Op1 ".v" (Var "r")) (Num 1)) (Op2 "&" (Op2 "|" (Op2 ">>" (Var "a0") (Num 62)) (Op2 "<<" (Var "a1") (Num 2))) (Var "M62"));
      Store Sec (Op2 "[]" (Op1 ".v" (Var "r")) (Num 2)) (Op2 "&" (Op2 "|" (Op2 ">>" (Var "a1") (Num 60)) (Op2 "<<" (Var "a2") (Num 4))) (Var "M62"));
      Store Sec (Op2 "[]" (Op1 ".v" (Var "r")) (Num 3)) (Op2 "&" (Op2 "|" (Op2 ">>" (Var "a2") (Num 58)) (Op2 "<<" (Var "a3") (Num 6))) (Var "M62"));
      Store Sec (Op2 "[]" (Op1 ".v" (Var "r")) (Num 4)) (Op2 ">>" (Var "a3") (Num 56))]).
(** src/scalar_4x64_impl.h:927-945 secp256k1_scalar_from_signed62 *)
Definition c64_scalar_from_signed62 : func := mkfunc "secp256k1_scalar_from_signed62" [("r", false); ("a", false)] false
  (seq [Assign "a0" (Load Sec (Op2 "[]" (Op1 ".v" (Var "a")) (Num 0)));
      Assign "a1" (Load Sec (Op2 "[]" (Op1 ".v" (Var "a")) (Num 1)));
      Assign "a2" (Load Sec (Op2 "[]" (Op1 ".v" (Var "a")) (Num 2)));
      Assign "a3" (Load Sec (Op2 "[]" (Op1 ".v" (Var "a")) (Num 3)));
      Assign "a4" (Load Sec (Op2 "[]" (Op1 ".v" (Var "a")) (Num 4)));
      Store Sec (Op2 "[]" (Op1 ".d" (Var "r")) (Num 0)) (Op2 "|" (Var "a0") (Op2 "<<" (Var "a1") (Num 62)));
      Store Sec (Op2 "[]" (Op1 ".d" (Var "r")) (Num 1)) (Op2 "|" (Op2 ">>" (Var "a1") (Num 2)) (Op2 "<<" (Var "a2") (Num 60)));
      Store Sec (Op2 "[]" (Op1 ".d" (Var "r")) (Num 2)) (Op2 "|" (Op2 ">>" (Var "a2") (Num 4)) (Op2 "<<" (Var "a3") (Num 58)));
      Store Sec (Op2 "[]" (Op1 ".d" (Var "r")) (Num 3)) (Op2 "|" (Op2 ">>" (Var "a3") (Num 6)) (Op2 "<<" (Var "a4") (Num 56)))]).
(** src/scalar_4x64_impl.h:964-977 secp256k1_scalar_inverse *)
Definition c64_scalar_inverse : func := mkfunc "secp256k1_scalar_inverse" [("r", false); ("x", false)] false
  (seq [Call "_" "secp256k1_scalar_to_signed62" [Addr "s"; Var "x"];
      Call "_" "secp256k1_modinv64@SP" [Addr "s"; Op0 "secp256k1_const_modinfo_scalar"];
      Call "_" "secp256k1_scalar_from_signed62" [Var "r"; Addr "s"]]).
(** src/scalar_4x64_impl.h:241-253 secp256k1_scalar_is_high *)
Definition c64_scalar_is_high : func := mkfunc "secp256k1_scalar_is_high" [("a", false)] true
  (seq [Assign "yes" (Num 0);
      Assign "no" (Num 0);
      Assign "no" (Op2 "|" (Var "no") (Op2 "<" (Load Sec (Op2 "[]" (Op1 ".d" (Var "a")) (Num 3))) (Op1 "(uint64_t)" (Num 9223372036854775807))));
      Assign "yes" (Op2 "|" (Var "yes") (Op2 "&" (Op2 ">" (Load Sec (Op2 "[]" (Op1 ".d" (Var "a")) (Num 3))) (Op1 "(uint64_t)" (Num 9223372036854775807))) (Op1 "~" (Var "no"))));
      Assign "no" (Op2 "|" (Var "no") (Op2 "&" (Op2 "<" (Load Sec (Op2 "[]" (Op1 ".d" (Var "a")) (Num 2))) (Op1 "(uint64_t)" (Num 18446744073709551615))) (Op1 "~" (Var "yes"))));
      Assign "no" (Op2 "|" (Var "no") (Op2 "&" (Op2 "<" (Load Sec (Op2 "[]" (Op1 ".d" (Var "a")) (Num 1))) (Op1 "(uint64_t)" (Num 6725966010171805725))) (Op1 "~" (Var "yes"))));
      Assign "yes" (Op2 "|" (Var "yes") (Op2 "&" (Op2 ">" (Load Sec (Op2 "[]" (Op1 ".d" (Var "a")) (Num 1))) (Op1 "(uint64_t)" (Num 6725966010171805725))) (Op1 "~" (Var "no"))));
      Assign "yes" (Op2 "|" (Var "yes") (Op2 "&" (Op2 ">" (Load Sec (Op2 "[]" (Op1 ".d" (Var "a")) (Num 0))) (Op1 "(uint64_t)" (Num 16134479119472337056))) (Op1 "~" (Var "no"))));
      Return (Var "yes")]).
(** src/scalar_4x64_impl.h:255-279 secp256k1_scalar_cond_negate *)
Definition c64_scalar_cond_negate : func := mkfunc "secp256k1_scalar_cond_negate" [("r", false); ("flag", true)] true
  (seq [Assign "vflag" (Var "flag");
      Assign "mask" (Op1 "-" (Var "vflag"));
      Call "t1" "secp256k1_scalar_is_zero" [Var "r"];
      Assign "nonzero" (Op2 "-" (Op2 "!=" (Var "t1") (Num 0)) (Num 1));
      Call "_" "secp256k1_u128_from_u64" [Addr "t"; Op2 "^" (Load Sec (Op2 "[]" (Op1 ".d" (Var "r")) (Num 0))) (Var "mask")];
      Call "_" "secp256k1_u128_accum_u64" [Addr "t"; Op2 "&" (Op2 "+" (Op1 "(uint64_t)" (Num 13822214165235122497)) (Num 1)) (Var "mask")];
      Call "t2" "secp256k1_u128_to_u64" [Addr "t"];
      Store Sec (Op2 "[]" (Op1 ".d" (Var "r")) (Num 0)) (Op2 "&" (Var "t2") (Var "nonzero"));
      Call "_" "secp256k1_u128_rshift" [Addr "t"; Num 64];
      Call "_" "secp256k1_u128_accum_u64" [Addr "t"; Op2 "^" (Load Sec (Op2 "[]" (Op1 ".d" (Var "r")) (Num 1))) (Var "mask")];
      Call "_" "secp256k1_u128_accum_u64" [Addr "t"; Op2 "&" (Op1 "(uint64_t)" (Num 13451932020343611451)) (Var "mask")];
      Call "t3" "secp256k1_u128_to_u64" [Addr "t"];
      Store Sec (Op2 "[]" (Op1 ".d" (Var "r")) (Num 1)) (Op2 "&" (Var "t3") (Var "nonzero"));
      Call "_" "secp256k1_u128_rshift" [Addr "t"; Num 64];
      Call "_" "secp256k1_u128_accum_u64" [Addr "t"; Op2 "^" (Load Sec (Op2 "[]" (Op1 ".d" (Var "r")) (Num 2))) (Var "mask")];
      Call "_" "secp256k1_u128_accum_u64" [Addr "t"; Op2 "&" (Op1 "(uint64_t)" (Num 18446744073709551614)) (Var "mask")];
      Call "t4" "secp256k1_u128_to_u64" [Addr "t"];
      Store Sec (Op2 "[]" (Op1 ".d" (Var "r")) (Num 2)) (Op2 "&" (Var "t4") (Var "nonzero"));
      Call "_" "secp256k1_u128_rshift" [Addr "t"; Num 64];
      Call "_" "secp256k1_u128_accum_u64" [Addr "t"; Op2 "^" (Load Sec (Op2 "[]" (Op1 ".d" (Var "r")) (Num 3))) (Var "mask")];
      Call "_" "secp256k1_u128_accum_u64" [Addr "t"; Op2 "&" (Op1 "(uint64_t)" (Num 18446744073709551615)) (Var "mask")];
      Call "t5" "secp256k1_u128_to_u64" [Addr "t"];
      Store Sec (Op2 "[]" (Op1 ".d" (Var "r")) (Num 3)) (Op2 "&" (Var "t5") (Var "nonzero"));
      Return (Op2 "-" (Op2 "*" (Num 2) (Op2 "==" (Var "mask") (Num 0))) (Num 1))]).
(** src/ecdsa_impl.h:266-302 secp256k1_ecdsa_sig_sign *)
Definition c64_ecdsa_sig_sign : func := mkfunc "secp256k1_ecdsa_sig_sign" [("ctx", false); ("sigr", false); ("sigs", false); ("seckey", false); ("message", false); ("nonce", false); ("recid", false)] true
  (seq [Store Sec (Addr "overflow") (Num 0);
      Call "_" "secp256k1_ecmult_gen" [Var "ctx"; Addr "rp"; Var "nonce"];
      Call "_" "secp256k1_ge_set_gej" [Addr "r"; Addr "rp"];
      Call "_" "secp256k1_fe_impl_normalize" [Op1 ".x" (Addr "r")];
      Call "_" "secp256k1_fe_impl_normalize" [Op1 ".y" (Addr "r")];
      Call "_" "secp256k1_fe_impl_get_b32" [Addr "b"; Op1 ".x" (Addr "r")];
      Call "_" "secp256k1_scalar_set_b32" [Var "sigr"; Addr "b"; Addr "overflow"];
      If (Var "recid") (seq [Call "t1" "secp256k1_fe_impl_is_odd" [Op1 ".y" (Addr "r")];
      Store Sec (Var "recid") (Op2 "|" (Op2 "<<" (Load Sec (Addr "overflow")) (Num 1)) (Var "t1"))]) (Skip);
      Call "_" "secp256k1_scalar_mul" [Addr "n"; Var "sigr"; Var "seckey"];
      Call "_" "secp256k1_scalar_add" [Addr "n"; Addr "n"; Var "message"];
      Call "_" "secp256k1_scalar_inverse" [Var "sigs"; Var "nonce"];
      Call "_" "secp256k1_scalar_mul" [Var "sigs"; Var "sigs"; Addr "n"];
      Call "_" "secp256k1_scalar_clear" [Addr "n"];
      Call "_" "secp256k1_gej_clear" [Addr "rp"];
      Call "_" "secp256k1_ge_clear" [Addr "r"];
      Call "t2" "secp256k1_scalar_is_high" [Var "sigs"];
      Assign "high" (Var "t2");
      Call "_" "secp256k1_scalar_cond_negate" [Var "sigs"; Var "high"];
      If (Var "recid") (Store Sec (Var "recid") (Op2 "^" (Load Sec (Var "recid")) (Var "high"))) (Skip);
      Call "t3" "secp256k1_scalar_is_zero" [Var "sigr"];
      Call "t4" "secp256k1_scalar_is_zero" [Var "sigs"];
      Return (Op2 "&" (Op1 "(int)" (Op1 "!" (Var "t3"))) (Op1 "(int)" (Op1 "!" (Var "t4"))))]).
(** src/util.h:285-301 secp256k1_int_cmov *)
Definition c64_int_cmov : func := mkfunc "secp256k1_int_cmov" [("r", false); ("a", false); ("flag", true)] false
  (seq [Assign "vflag" (Var "flag");
      Assign "mask0" (Op2 "+" (Op1 "(unsigned int)" (Var "vflag")) (Op1 "~" (Num 0)));
      Assign "mask1" (Op1 "~" (Var "mask0"));
      Assign "r_masked" (Op2 "&" (Op1 "(unsigned int)" (Load Sec (Var "r"))) (Var "mask0"));
      Assign "a_masked" (Op2 "&" (Op1 "(unsigned int)" (Load Sec (Var "a"))) (Var "mask1"));
      Store Sec (Var "r") (Op1 "(int)" (Op2 "|" (Var "r_masked") (Var "a_masked")))]).
(** src/secp256k1.c:510-564 secp256k1_ecdsa_sign_inner *)
Definition c64_ecdsa_sign_inner : func := mkfunc "secp256k1_ecdsa_sign_inner" [("ctx", false); ("r", false); ("s", false); ("recid", false); ("msg32", false); ("seckey", false); ("noncefp", false); ("noncedata", false)] true
  (seq [Assign "ret" (Num 0);
      Assign "count" (Num 0);
      Prim "copy" [Var "r"; Op0 "secp256k1_scalar_zero"];
      Prim "copy" [Var "s"; Op0 "secp256k1_scalar_zero"];
      If (Var "recid") (Store Sec (Var "recid") (Num 0)) (Skip);
      If (Op2 "==" (Var "noncefp") (Num 0)) (Assign "noncefp" (Op0 "secp256k1_nonce_function_default")) (Skip);
      Call "t1" "secp256k1_scalar_set_b32_seckey" [Addr "sec"; Var "seckey"];
      Assign "is_sec_valid" (Var "t1");
      Call "_" "secp256k1_scalar_cmov@SP" [Addr "sec"; Op0 "secp256k1_scalar_one"; Op1 "!" (Var "is_sec_valid")];
      Call "_" "secp256k1_scalar_set_b32" [Addr "msg"; Var "msg32"; Num 0];
      Loop (seq [Call "t2" "nonce_function_rfc6979" [Addr "nonce32"; Var "msg32"; Var "seckey"; Num 0; Var "noncedata"; Var "count"];
      Assign "ret" (Op1 "!" (Op1 "!" (Var "t2")));
      If (Op1 "!" (Var "ret")) (Break) (Skip);
      Call "t3" "secp256k1_scalar_set_b32_seckey" [Addr "non"; Addr "nonce32"];
      Assign "is_nonce_valid" (Var "t3");
      Assign "is_nonce_valid" (Reveal "secp256k1_ecdsa_sign_inner: is_nonce_valid" (Var "is_nonce_valid"));
      If (Var "is_nonce_valid") (seq [Call "t4" "secp256k1_ecdsa_sig_sign" [Op1 ".ecmult_gen_ctx" (Var "ctx"); Var "r"; Var "s"; Addr "sec"; Addr "msg"; Addr "non"; Var "recid"];
      Assign "ret" (Var "t4");
      Assign "ret" (Reveal "secp256k1_ecdsa_sign_inner: ret" (Var "ret"));
      If (Var "ret") (Break) (Skip)]) (Skip);
      Assign "count" (Op2 "+" (Var "count") (Num 1))]);
      Assign "ret" (Op2 "&" (Var "ret") (Var "is_sec_valid"));
      Prim "secp256k1_memclear" [Addr "nonce32"; Op0 "sizeof ( nonce32 )"];
      Call "_" "secp256k1_scalar_clear" [Addr "msg"];
      Call "_" "secp256k1_scalar_clear" [Addr "non"];
      Call "_" "secp256k1_scalar_clear" [Addr "sec"];
      Call "_" "secp256k1_scalar_cmov@SP" [Var "r"; Op0 "secp256k1_scalar_zero"; Op1 "!" (Var "ret")];
      Call "_" "secp256k1_scalar_cmov@SP" [Var "s"; Op0 "secp256k1_scalar_zero"; Op1 "!" (Var "ret")];
      If (Var "recid") (seq [Store Sec (Addr "zero") (Num 0);
      Call "_" "secp256k1_int_cmov" [Var "recid"; Addr "zero"; Op1 "!" (Var "ret")]]) (Skip);
      Return (Var "ret")]).
(** src/secp256k1.c:359-367 secp256k1_ecdsa_signature_save *)
Definition c64_ecdsa_signature_save : func := mkfunc "secp256k1_ecdsa_signature_save" [("sig", false); ("r", false); ("s", false)] false
  (If (Op2 "==" (Op0 "sizeof ( secp256k1_scalar )") (Num 32)) (seq [Prim "memcpy" [Op2 "[]" (Op1 ".data" (Var "sig")) (Num 0); Var "r"; Num 32];
      Prim "memcpy" [Op2 "[]" (Op1 ".data" (Var "sig")) (Num 32); Var "s"; Num 32]]) (seq [Call "_" "secp256k1_scalar_get_b32" [Op2 "[]" (Op1 ".data" (Var "sig")) (Num 0); Var "r"];
      Call "_" "secp256k1_scalar_get_b32" [Op2 "[]" (Op1 ".data" (Var "sig")) (Num 32); Var "s"]])).
(** src/secp256k1.c:566-578 secp256k1_ecdsa_sign *)
Definition c64_ecdsa_sign : func := mkfunc "secp256k1_ecdsa_sign" [("ctx", false); ("signature", false); ("msghash32", false); ("seckey", false); ("noncefp", false); ("noncedata", false)] true
  (seq [Call "t1" "secp256k1_ecmult_gen_context_is_built" [Op1 ".ecmult_gen_ctx" (Var "ctx")];
      If (Op1 "!" (Var "t1")) (seq [Prim "callback" [];
      Return (Num 0)]) (Skip);
      If (Op1 "!" (Op2 "!=" (Var "msghash32") (Num 0))) (seq [Prim "callback" [];
      Return (Num 0)]) (Skip);
      If (Op1 "!" (Op2 "!=" (Var "signature") (Num 0))) (seq [Prim "callback" [];
      Return (Num 0)]) (Skip);
      If (Op1 "!" (Op2 "!=" (Var "seckey") (Num 0))) (seq [Prim "callback" [];
      Return (Num 0)]) (Skip);
      Call "t2" "secp256k1_ecdsa_sign_inner" [Var "ctx"; Addr "r"; Addr "s"; Num 0; Var "msghash32"; Var "seckey"; Var "noncefp"; Var "noncedata"];
      Assign "ret" (Var "t2");
      Call "_" "secp256k1_ecdsa_signature_save" [Var "signature"; Addr "r"; Addr "s"];
      Return (Var "ret")]).
(** src/modules/recovery/main_impl.h:27-36 secp256k1_ecdsa_recoverable_signature_save *)
Definition c64_ecdsa_recoverable_signature_save : func := mkfunc "secp256k1_ecdsa_recoverable_signature_save" [("sig", false); ("r", false); ("s", false); ("recid", true)] false
  (seq [If (Op2 "==" (Op0 "sizeof ( secp256k1_scalar )") (Num 32)) (seq [Prim "memcpy" [Op2 "[]" (Op1 ".data" (Var "sig")) (Num 0); Var "r"; Num 32];
      Prim "memcpy" [Op2 "[]" (Op1 ".data" (Var "sig")) (Num 32); Var "s"; Num 32]]) (seq [Call "_" "secp256k1_scalar_get_b32" [Op2 "[]" (Op1 ".data" (Var "sig")) (Num 0); Var "r"];
      Call "_" "secp256k1_scalar_get_b32" [Op2 "[]" (Op1 ".data" (Var "sig")) (Num 32); Var "s"]]);
      Store Sec (Op2 "[]" (Op1 ".data" (Var "sig")) (Num 64)) (Var "recid")]).
(** src/modules/recovery/main_impl.h:123-135 secp256k1_ecdsa_sign_recoverable *)
Definition c64_ecdsa_sign_recoverable : func := mkfunc "secp256k1_ecdsa_sign_recoverable" [("ctx", false); ("signature", false); ("msghash32", false); ("seckey", false); ("noncefp", false); ("noncedata", false)] true
  (seq [Call "t1" "secp256k1_ecmult_gen_context_is_built" [Op1 ".ecmult_gen_ctx" (Var "ctx")];
      If (Op1 "!" (Var "t1")) (seq [Prim "callback" [];
      Return (Num 0)]) (Skip);
      If (Op1 "!" (Op2 "!=" (Var "msghash32") (Num 0))) (seq [Prim "callback" [];
      Return (Num 0)]) (Skip);
      If (Op1 "!" (Op2 "!=" (Var "signature") (Num 0))) (seq [Prim "callback" [];
      Return (Num 0)]) (Skip);
      If (Op1 "!" (Op2 "!=" (Var "seckey") (Num 0))) (seq [Prim "callback" [];
      Return (Num 0)]) (Skip);
      Call "t2" "secp256k1_ecdsa_sign_inner" [Var "ctx"; Addr "r"; Addr "s"; Addr "recid"; Var "msghash32"; Var "seckey"; Var "noncefp"; Var "noncedata"];
      Assign "ret" (Var "t2");
      Call "_" "secp256k1_ecdsa_recoverable_signature_save" [Var "signature"; Addr "r"; Addr "s"; Load Sec (Addr "recid")];
      Return (Var "ret")]).
(** src/group_impl.h:143-147 secp256k1_ge_is_infinity@P *)
Definition c64_ge_is_infinity__P : func := mkfunc "secp256k1_ge_is_infinity@P" [("a", false)] false
  (Return (Load Pub (Op1 ".infinity" (Var "a")))).
(** src/group_impl.h:322-329 secp256k1_gej_set_infinity *)
Definition c64_gej_set_infinity : func := mkfunc "secp256k1_gej_set_infinity" [("r", false)] false
  (seq [Store Sec (Op1 ".infinity" (Var "r")) (Num 1);
      Call "_" "secp256k1_fe_impl_set_int" [Op1 ".x" (Var "r"); Num 0];
      Call "_" "secp256k1_fe_impl_set_int" [Op1 ".y" (Var "r"); Num 0];
      Call "_" "secp256k1_fe_impl_set_int" [Op1 ".z" (Var "r"); Num 0]]).
(** src/scalar_4x64_impl.h:94-118 secp256k1_scalar_add@SSP *)
Definition c64_scalar_add__SSP : func := mkfunc "secp256k1_scalar_add@SSP" [("r", false); ("a", false); ("b", false)] true
  (seq [Call "_" "secp256k1_u128_from_u64" [Addr "t"; Load Sec (Op2 "[]" (Op1 ".d" (Var "a")) (Num 0))];
      Call "_" "secp256k1_u128_accum_u64" [Addr "t"; Load Pub (Op2 "[]" (Op1 ".d" (Var "b")) (Num 0))];
      Call "t1" "secp256k1_u128_to_u64" [Addr "t"];
      Store Sec (Op2 "[]" (Op1 ".d" (Var "r")) (Num 0)) (Var "t1");
      Call "_" "secp256k1_u128_rshift" [Addr "t"; Num 64];
      Call "_" "secp256k1_u128_accum_u64" [Addr "t"; Load Sec (Op2 "[]" (Op1 ".d" (Var "a")) (Num 1))];
      Call "_" "secp256k1_u128_accum_u64" [Addr "t"; Load Pub (Op2 "[]" (Op1 ".d" (Var "b")) (Num 1))];
      Call "t2" "secp256k1_u128_to_u64" [Addr "t"];
      Store Sec (Op2 "[]" (Op1 ".d" (Var "r")) (Num 1)) (Var "t2");
      Call "_" "secp256k1_u128_rshift" [Addr "t"; Num 64];
      Call "_" "secp256k1_u128_accum_u64" [Addr "t"; Load Sec (Op2 "[]" (Op1 ".d" (Var "a")) (Num 2))];
      Call "_" "secp256k1_u128_accum_u64" [Addr "t"; Load Pub (Op2 "[]" (Op1 ".d" (Var "b")) (Num 2))];
      Call "t3" "secp256k1_u128_to_u64" [Addr "t"];
      Store Sec (Op2 "[]" (Op1 ".d" (Var "r")) (Num 2)) (Var "t3");
      Call "_" "secp256k1_u128_rshift" [Addr "t"; Num 64];
      Call "_" "secp256k1_u128_accum_u64" [Addr "t"; Load Sec (Op2 "[]" (Op1 ".d" (Var "a")) (Num 3))];
      Call "_" "secp256k1_u128_accum_u64" [Addr "t"; Load Pub (Op2 "[]" (Op1 ".d" (Var "b")) (Num 3))];
      Call "t4" "secp256k1_u128_to_u64" [Addr "t"];
      Store Sec (Op2 "[]" (Op1 ".d" (Var "r")) (Num 3)) (Var "t4");
      Call "_" "secp256k1_u128_rshift" [Addr "t"; Num 64];
      Call "t5" "secp256k1_u128_to_u64" [Addr "t"];
      Call "t6" "secp256k1_scalar_check_overflow" [Var "r"];
      Assign "overflow" (Op2 "+" (Var "t5") (Var "t6"));
      Call "_" "secp256k1_scalar_reduce" [Var "r"; Var "overflow"];
      Return (Var "overflow")]).
(** src/scalar_4x64_impl.h:194-233 secp256k1_scalar_half *)
Definition c64_scalar_half : func := mkfunc "secp256k1_scalar_half" [("r", false); ("a", false)] false
  (seq [Assign "mask" (Op1 "-" (Op1 "(uint64_t)" (Op2 "&" (Load Sec (Op2 "[]" (Op1 ".d" (Var "a")) (Num 0))) (Num 1))));
      Call "_" "secp256k1_u128_from_u64" [Addr "t"; Op2 "|" (Op2 ">>" (Load Sec (Op2 "[]" (Op1 ".d" (Var "a")) (Num 0))) (Num 1)) (Op2 "<<" (Load Sec (Op2 "[]" (Op1 ".d" (Var "a")) (Num 1))) (Num 63))];
      Call "_" "secp256k1_u128_accum_u64" [Addr "t"; Op2 "&" (Op2 "+" (Op1 "(uint64_t)" (Num 16134479119472337056)) (Num 1)) (Var "mask")];
      Call "t1" "secp256k1_u128_to_u64" [Addr "t"];
      Store Sec (Op2 "[]" (Op1 ".d" (Var "r")) (Num 0)) (Var "t1");
      Call "_" "secp256k1_u128_rshift" [Addr "t"; Num 64];
      Call "_" "secp256k1_u128_accum_u64" [Addr "t"; Op2 "|" (Op2 ">>" (Load Sec (Op2 "[]" (Op1 ".d" (Var "a")) (Num 1))) (Num 1)) (Op2 "<<" (Load Sec (Op2 "[]" (Op1 ".d" (Var "a")) (Num 2))) (Num 63))];
      Call "_" "secp256k1_u128_accum_u64" [Addr "t"; Op2 "&" (Op1 "(uint64_t)" (Num 6725966010171805725)) (Var "mask")];
      Call "t2" "secp256k1_u128_to_u64" [Addr "t"];
      Store Sec (Op2 "[]" (Op1 ".d" (Var "r")) (Num 1)) (Var "t2");
      Call "_" "secp256k1_u128_rshift" [Addr "t"; Num 64];
      Call "_" "secp256k1_u128_accum_u64" [Addr "t"; Op2 "|" (Op2 ">>" (Load Sec (Op2 "[]" (Op1 ".d" (Var "a")) (Num 2))) (Num 1)) (Op2 "<<" (Load Sec (Op2 "[]" (Op1 ".d" (Var "a")) (Num 3))) (Num 63))];
      Call "_" "secp256k1_u128_accum_u64" [Addr "t"; Op2 "&" (Op1 "(uint64_t)" (Num 18446744073709551615)) (Var "mask")];
      Call "t3" "secp256k1_u128_to_u64" [Addr "t"];
      Store Sec (Op2 "[]" (Op1 ".d" (Var "r")) (Num 2)) (Var "t3");
      Call "_" "secp256k1_u128_rshift" [Addr "t"; Num 64];
      Call "t4" "secp256k1_u128_to_u64" [Addr "t"];
      Store Sec (Op2 "[]" (Op1 ".d" (Var "r")) (Num 3)) (Op2 "+" (Op2 "+" (Var "t4") (Op2 ">>" (Load Sec (Op2 "[]" (Op1 ".d" (Var "a")) (Num 3))) (Num 1))) (Op2 "&" (Op1 "(uint64_t)" (Num 9223372036854775807)) (Var "mask")))]).
(** src/scalar_4x64_impl.h:678-846 secp256k1_scalar_mul_512@SSP *)
Definition c64_scalar_mul_512__SSP : func := mkfunc "secp256k1_scalar_mul_512@SSP" [("l8", false); ("a", false); ("b", false)] false
  (seq [Assign "c0" (Num 0);
      Assign "c1" (Num 0);
      Assign "c2" (Num 0);
      Call "_" "secp256k1_u128_mul" [Addr "t"; Load Sec (Op2 "[]" (Op1 ".d" (Var "a")) (Num 0)); Load Pub (Op2 "[]" (Op1 ".d" (Var "b")) (Num 0))];
      Call "t1" "secp256k1_u128_hi_u64" [Addr "t"];
      Assign "th" (Var "t1");
      Call "t2" "secp256k1_u128_to_u64" [Addr "t"];
      Assign "tl" (Var "t2");
      Assign "c0" (Op2 "+" (Var "c0") (Var "tl"));
      Assign "th" (Op2 "+" (Var "th") (Op2 "<" (Var "c0") (Var "tl")));
      Assign "c1" (Op2 "+" (Var "c1") (Var "th"));
      Store Sec (Op2 "[]" (Var "l8") (Num 0)) (Var "c0");
      Assign "c0" (Var "c1");
      Assign "c1" (Num 0);
      Call "_" "secp256k1_u128_mul" [Addr "t_2"; Load Sec (Op2 "[]" (Op1 ".d" (Var "a")) (Num 0)); Load Pub (Op2 "[]" (Op1 ".d" (Var "b")) (Num 1))];
      Call "t3" "secp256k1_u128_hi_u64" [Addr "t_2"];
      Assign "th_2" (Var "t3");
      Call "t4" "secp256k1_u128_to_u64" [Addr "t_2"];
      Assign "tl_2" (Var "t4");
      Assign "c0" (Op2 "+" (Var "c0") (Var "tl_2"));
      Assign "th_2" (Op2 "+" (Var "th_2") (Op2 "<" (Var "c0") (Var "tl_2")));
      Assign "c1" (Op2 "+" (Var "c1") (Var "th_2"));
      Assign "c2" (Op2 "+" (Var "c2") (Op2 "<" (Var "c1") (Var "th_2")));
      Call "_" "secp256k1_u128_mul" [Addr "t_3"; Load Sec (Op2 "[]" (Op1 ".d" (Var "a")) (Num 1)); Load Pub (Op2 "[]" (Op1 ".d" (Var "b")) (Num 0))];
      Call "t5" "secp256k1_u128_hi_u64" [Addr "t_3"];
      Assign "th_3" (Var "t5");
      Call "t6" "secp256k1_u128_to_u64" [Addr "t_3"];
      Assign "tl_3" (Var "t6");
      Assign "c0" (Op2 "+" (Var "c0") (Var "tl_3"));
      Assign "th_3" (Op2 "+" (Var "th_3") (Op2 "<" (Var "c0") (Var "tl_3")));
      Assign "c1" (Op2 "+" (Var "c1") (Var "th_3"));
      Assign "c2" (Op2 "+" (Var "c2") (Op2 "<" (Var "c1") (Var "th_3")));
      Store Sec (Op2 "[]" (Var "l8") (Num 1)) (Var "c0");
      Assign "c0" (Var "c1");
      Assign "c1" (Var "c2");
      Assign "c2" (Num 0);
      Call "_" "secp256k1_u128_mul" [Addr "t_4"; Load Sec (Op2 "[]" (Op1 ".d" (Var "a")) (Num 0)); Load Pub (Op2 "[]" (Op1 ".d" (Var "b")) (Num 2))];
      Call "t7" "secp256k1_u128_hi_u64" [Addr "t_4"];
      Assign "th_4" (Var "t7");
      Call "t8" "secp256k1_u128_to_u64" [Addr "t_4"];
      Assign "tl_4" (Var "t8");
      Assign "c0" (Op2 "+" (Var "c0") (Var "tl_4"));
      Assign "th_4" (Op2 "+" (Var "th_4") (Op2 "<" (Var "c0") (Var "tl_4")));
      Assign "c1" (Op2 "+" (Var "c1") (Var "th_4"));
      Assign "c2" (Op2 "+" (Var "c2") (Op2 "<" (Var "c1") (Var "th_4")));
      Call "_" "secp256k1_u128_mul" [Addr "t_5"; Load Sec (Op2 "[]" (Op1 ".d" (Var "a")) (Num 1)); Load Pub (Op2 "[]" (Op1 ".d" (Var "b")) (Num 1))];
      Call "t9" "secp256k1_u128_hi_u64" [Addr "t_5"];
      Assign "th_5" (Var "t9");
      Call "t10" "secp256k1_u128_to_u64" [Addr "t_5"];
      Assign "tl_5" (Var "t10");
      Assign "c0" (Op2 "+" (Var "c0") (Var "tl_5"));
      Assign "th_5" (Op2 "+" (Var "th_5") (Op2 "<" (Var "c0") (Var "tl_5")));
      Assign "c1" (Op2 "+" (Var "c1") (Var "th_5"));
      Assign "c2" (Op2 "+" (Var "c2") (Op2 "<" (Var "c1") (Var "th_5")));
      Call "_" "secp256k1_u128_mul" [Addr "t_6"; Load Sec (Op2 "[]" (Op1 ".d" (Var "a")) (Num 2)); Load Pub (Op2 "[]" (Op1 ".d" (Var "b")) (Num 0))];
      Call "t11" "secp256k1_u128_hi_u64" [Addr "t_6"];
      Assign "th_6" (Var "t11");
      Call "t12" "secp256k1_u128_to_u64" [Addr "t_6"];
      Assign "tl_6" (Var "t12");
      Assign "c0" (Op2 "+" (Var "c0") (Var "tl_6"));
      Assign "th_6" (Op2 "+" (Var "th_6") (Op2 "<" (Var "c0") (Var "tl_6")));
      Assign "c1" (Op2 "+" (Var "c1") (Var "th_6"));
      Assign "c2" (Op2 "+" (Var "c2") (Op2 "<" (Var "c1") (Var "th_6")));
      Store Sec (Op2 "[]" (Var "l8") (Num 2)) (Var "c0");
      Assign "c0" (Var "c1");
      Assign "c1" (Var "c2");
      Assign "c2" (Num 0);
      Call "_" "secp256k1_u128_mul" [Addr "t_7"; Load Sec (Op2 "[]" (Op1 ".d" (Var "a")) (Num 0)); Load Pub (Op2 "[]" (Op1 ".d" (Var "b")) (Num 3))];
      Call "t13" "secp256k1_u128_hi_u64" [Addr "t_7"];
      Assign "th_7" (Var "t13");
      Call "t14" "secp256k1_u128_to_u64" [Addr "t_7"];
      Assign "tl_7" (Var "t14");
      Assign "c0" (Op2 "+" (Var "c0") (Var "tl_7"));
      Assign "th_7" (Op2 "+" (Var "th_7") (Op2 "<" (Var "c0") (Var "tl_7")));
      Assign "c1" (Op2 "+" (Var "c1") (Var "th_7"));
      Assign "c2" (Op2 "+" (Var "c2") (Op2 "<" (Var "c1") (Var "th_7")));
      Call "_" "secp256k1_u128_mul" [Addr "t_8"; Load Sec (Op2 "[]" (Op1 ".d" (Var "a")) (Num 1)); Load Pub (Op2 "[]" (Op1 ".d" (Var "b")) (Num 2))];
      Call "t15" "secp256k1_u128_hi_u64" [Addr "t_8"];
      Assign "th_8" (Var "t15");
      Call "t16" "secp256k1_u128_to_u64" [Addr "t_8"];
      Assign "tl_8" (Var "t16");
      Assign "c0" (Op2 "+" (Var "c0") (Var "tl_8"));
      Assign "th_8" (Op2 "+" (Var "th_8") (Op2 "<" (Var "c0") (Var "tl_8")));
      Assign "c1" (Op2 "+" (Var "c1") (Var "th_8"));
      Assign "c2" (Op2 "+" (Var "c2") (Op2 "<" (Var "c1") (Var "th_8")));
      Call "_" "secp256k1_u128_mul" [Addr "t_9"; Load Sec (Op2 "[]" (Op1 ".d" (Var "a")) (Num 2)); Load Pub (Op2 "[]" (Op1 ".d" (Var "b")) (Num 1))];
      Call "t17" "secp256k1_u128_hi_u64" [Addr "t_9"];
      Assign "th_9" (Var "t17");
      Call "t18" "secp256k1_u128_to_u64" [Addr "t_9"];
      Assign "tl_9" (Var "t18");
      Assign "c0" (Op2 "+" (Var "c0") (Var "tl_9"));
      Assign "th_9" (Op2 "+" (Var "th_9") (Op2 "<" (Var "c0") (Var "tl_9")));
      Assign "c1" (Op2 "+" (Var "c1") (Var "th_9"));
      Assign "c2" (Op2 "+" (Var "c2") (Op2 "<" (Var "c1") (Var "th_9")));
      Call "_" "secp256k1_u128_mul" [Addr "t_10"; Load Sec (Op2 "[]" (Op1 ".d" (Var "a")) (Num 3)); Load Pub (Op2 "[]" (Op1 ".d" (Var "b")) (Num 0))];
      Call "t19" "secp256k1_u128_hi_u64" [Addr "t_10"];
      Assign "th_10" (Var "t19");
      Call "t20" "secp256k1_u128_to_u64" [Addr "t_10"];
      Assign "tl_10" (Var "t20");
      Assign "c0" (Op2 "+" (Var "c0") (Var "tl_10"));
      Assign "th_10" (Op2 "+" (Var "th_10") (Op2 "<" (Var "c0") (Var "tl_10")));
      Assign "c1" (Op2 "+" (Var "c1") (Var "th_10"));
      Assign "c2" (Op2 "+" (Var "c2") (Op2 "<" (Var "c1") (Var "th_10")));
      Store Sec (Op2 "[]" (Var "l8") (Num 3)) (Var "c0");
      Assign "c0" (Var "c1");
      Assign "c1" (Var "c2");
      Assign "c2" (Num 0);
      Call "_" "secp256k1_u128_mul" [Addr "t_11"; Load Sec (Op2 "[]" (Op1 ".d" (Var "a")) (Num 1)); Load Pub (Op2 "[]" (Op1 ".d" (Var "b")) (Num 3))];
      Call "t21" "secp256k1_u128_hi_u64" [Addr "t_11"];
      Assign "th_11" (Var "t21");
      Call "t22" "secp256k1_u128_to_u64" [Addr "t_11"];
      Assign "tl_11" (Var "t22");
      Assign "c0" (Op2 "+" (Var "c0") (Var "tl_11"));
      Assign "th_11" (Op2 "+" (Var "th_11") (Op2 "<" (Var "c0") (Var "tl_11")));
      Assign "c1" (Op2 "+" (Var "c1") (Var "th_11"));
      Assign "c2" (Op2 "+" (Var "c2") (Op2 "<" (Var "c1") (Var "th_11")));
      Call "_" "secp256k1_u128_mul" [Addr "t_12"; Load Sec (Op2 "[]" (Op1 ".d" (Var "a")) (Num 2)); Load Pub (Op2 "[]" (Op1 ".d" (Var "b")) (Num 2))];
      Call "t23" "secp256k1_u128_hi_u64" [Addr "t_12"];
      Assign "th_12" (Var "t23");
      Call "t24" "secp256k1_u128_to_u64" [Addr "t_12"];
      Assign "tl_12" (Var "t24");
      Assign "c0" (Op2 "+" (Var "c0") (Var "tl_12"));
      Assign "th_12" (Op2 "+" (Var "th_12") (Op2 "<" (Var "c0") (Var "tl_12")));
      Assign "c1" (Op2 "+" (Var "c1") (Var "th_12"));
      Assign "c2" (Op2 "+" (Var "c2") (Op2 "<" (Var "c1") (Var "th_12")));
      Call "_" "secp256k1_u128_mul" [Addr "t_13"; Load Sec (Op2 "[]" (Op1 ".d" (Var "a")) (Num 3)); Load Pub (Op2 "[]" (Op1 ".d" (Var "b")) (Num 1))];
      Call "t25" "secp256k1_u128_hi_u64" [Addr "t_13"];
      Assign "th_13" (Var "t25");
      Call "t26" "secp256k1_u128_to_u64" [Addr "t_13"];
      Assign "tl_13" (Var "t26");
      Assign "c0" (Op2 "+" (Var "c0") (Var "tl_13"));
      Assign "th_13" (Op2 "+" (Var "th_13") (Op2 "<" (Var "c0") (Var "tl_13")));
      Assign "c1" (Op2 "+" (Var "c1") (Var "th_13"));
      Assign "c2" (Op2 "+" (Var "c2") (Op2 "<" (Var "c1") (Var "th_13")));
      Store Sec (Op2 "[]" (Var "l8") (Num 4)) (Var "c0");
      Assign "c0" (Var "c1");
      Assign "c1" (Var "c2");
      Assign "c2" (Num 0);
      Call "_" "secp256k1_u128_mul" [Addr "t_14"; Load Sec (Op2 "[]" (Op1 ".d" (Var "a")) (Num 2)); Load Pub (Op2 "[]" (Op1 ".d" (Var "b")) (Num 3))];
      Call "t27" "secp256k1_u128_hi_u64" [Addr "t_14"];
      Assign "th_14" (Var "t27");
      Call "t28" "secp256k1_u128_to_u64" [Addr "t_14"];
      Assign "tl_14" (Var "t28");
      Assign "c0" (Op2 "+" (Var "c0") (Var "tl_14"));
      Assign "th_14" (Op2 "+" (Var "th_14") (Op2 "<" (Var "c0") (Var "tl_14")));
      Assign "c1" (Op2 "+" (Var "c1") (Var "th_14"));
      Assign "c2" (Op2 "+" (Var "c2") (Op2 "<" (Var "c1") (Var "th_14")));
      Call "_" "secp256k1_u128_mul" [Addr "t_15"; Load Sec (Op2 "[]" (Op1 ".d" (Var "a")) (Num 3)); Load Pub (Op2 "[]" (Op1 ".d" (Var "b")) (Num 2))];
      Call "t29" "secp256k1_u128_hi_u64" [Addr "t_15"];
      Assign "th_15" (Var "t29");
      Call "t30" "secp256k1_u128_to_u64" [Addr "t_15"];
      Assign "tl_15" (Var "t30");
      Assign "c0" (Op2 "+" (Var "c0") (Var "tl_15"));
      Assign "th_15" (Op2 "+" (Var "th_15") (Op2 "<" (Var "c0") (Var "tl_15")));
      Assign "c1" (Op2 "+" (Var "c1") (Var "th_15"));
      Assign "c2" (Op2 "+" (Var "c2") (Op2 "<" (Var "c1") (Var "th_15")));
      Store Sec (Op2 "[]" (Var "l8") (Num 5)) (Var "c0");
      Assign "c0" (Var "c1");
      Assign "c1" (Var "c2");
      Assign "c2" (Num 0);
      Call "_" "secp256k1_u128_mul" [Addr "t_16"; Load Sec (Op2 "[]" (Op1 ".d" (Var "a")) (Num 3)); Load Pub (Op2 "[]" (Op1 ".d" (Var "b")) (Num 3))];
      Call "t31" "secp256k1_u128_hi_u64" [Addr "t_16"];
      Assign "th_16" (Var "t31");
      Call "t32" "secp256k1_u128_to_u64" [Addr "t_16"];
      Assign "tl_16" (Var "t32");
      Assign "c0" (Op2 "+" (Var "c0") (Var "tl_16"));
      Assign "th_16" (Op2 "+" (Var "th_16") (Op2 "<" (Var "c0") (Var "tl_16")));
      Assign "c1" (Op2 "+" (Var "c1") (Var "th_16"));
      Store Sec (Op2 "[]" (Var "l8") (Num 6)) (Var "c0");
      Assign "c0" (Var "c1");
      Assign "c1" (Num 0);
      Store Sec (Op2 "[]" (Var "l8") (Num 7)) (Var "c0")]).
(** src/scalar_4x64_impl.h:120-142 secp256k1_scalar_cadd_bit *)
Definition c64_scalar_cadd_bit : func := mkfunc "secp256k1_scalar_cadd_bit" [("r", false); ("bit", false); ("flag", true)] false
  (seq [Assign "vflag" (Var "flag");
      Assign "bit" (Op2 "+" (Var "bit") (Op2 "&" (Op2 "-" (Op1 "(uint32_t)" (Var "vflag")) (Num 1)) (Num 256)));
      Call "_" "secp256k1_u128_from_u64" [Addr "t"; Load Sec (Op2 "[]" (Op1 ".d" (Var "r")) (Num 0))];
      Call "_" "secp256k1_u128_accum_u64" [Addr "t"; Op2 "<<" (Op1 "(uint64_t)" (Op2 "==" (Op2 ">>" (Var "bit") (Num 6)) (Num 0))) (Op2 "&" (Var "bit") (Num 63))];
      Call "t1" "secp256k1_u128_to_u64" [Addr "t"];
      Store Sec (Op2 "[]" (Op1 ".d" (Var "r")) (Num 0)) (Var "t1");
      Call "_" "secp256k1_u128_rshift" [Addr "t"; Num 64];
      Call "_" "secp256k1_u128_accum_u64" [Addr "t"; Load Sec (Op2 "[]" (Op1 ".d" (Var "r")) (Num 1))];
      Call "_" "secp256k1_u128_accum_u64" [Addr "t"; Op2 "<<" (Op1 "(uint64_t)" (Op2 "==" (Op2 ">>" (Var "bit") (Num 6)) (Num 1))) (Op2 "&" (Var "bit") (Num 63))];
      Call "t2" "secp256k1_u128_to_u64" [Addr "t"];
      Store Sec (Op2 "[]" (Op1 ".d" (Var "r")) (Num 1)) (Var "t2");
      Call "_" "secp256k1_u128_rshift" [Addr "t"; Num 64];
      Call "_" "secp256k1_u128_accum_u64" [Addr "t"; Load Sec (Op2 "[]" (Op1 ".d" (Var "r")) (Num 2))];
      Call "_" "secp256k1_u128_accum_u64" [Addr "t"; Op2 "<<" (Op1 "(uint64_t)" (Op2 "==" (Op2 ">>" (Var "bit") (Num 6)) (Num 2))) (Op2 "&" (Var "bit") (Num 63))];
      Call "t3" "secp256k1_u128_to_u64" [Addr "t"];
      Store Sec (Op2 "[]" (Op1 ".d" (Var "r")) (Num 2)) (Var "t3");
      Call "_" "secp256k1_u128_rshift" [Addr "t"; Num 64];
      Call "_" "secp256k1_u128_accum_u64" [Addr "t"; Load Sec (Op2 "[]" (Op1 ".d" (Var "r")) (Num 3))];
      Call "_" "secp256k1_u128_accum_u64" [Addr "t"; Op2 "<<" (Op1 "(uint64_t)" (Op2 "==" (Op2 ">>" (Var "bit") (Num 6)) (Num 3))) (Op2 "&" (Var "bit") (Num 63))];
      Call "t4" "secp256k1_u128_to_u64" [Addr "t"];
      Store Sec (Op2 "[]" (Op1 ".d" (Var "r")) (Num 3)) (Var "t4")]).
(** src/scalar_4x64_impl.h:889-909 secp256k1_scalar_mul_shift_var@SSP *)
Definition c64_scalar_mul_shift_var__SSP : func := mkfunc "secp256k1_scalar_mul_shift_var@SSP" [("r", false); ("a", false); ("b", false); ("shift", false)] false
  (seq [Call "_" "secp256k1_scalar_mul_512@SSP" [Addr "l"; Var "a"; Var "b"];
      Assign "shiftlimbs" (Op2 ">>" (Var "shift") (Num 6));
      Assign "shiftlow" (Op2 "&" (Var "shift") (Num 63));
      Assign "shifthigh" (Op2 "-" (Num 64) (Var "shiftlow"));
      If (Op2 "<" (Var "shift") (Num 512)) (seq [If (Op2 "<" (Var "shift") (Num 448)) (Assign "t3" (Op2 "!=" (Var "shiftlow") (Num 0))) (Assign "t3" (Num 0));
      If (Var "t3") (Assign "t2" (Op2 "<<" (Load Sec (Op2 "[]" (Addr "l") (Op2 "+" (Num 1) (Var "shiftlimbs")))) (Var "shifthigh"))) (Assign "t2" (Num 0));
      Assign "t1" (Op2 "|" (Op2 ">>" (Load Sec (Op2 "[]" (Addr "l") (Op2 "+" (Num 0) (Var "shiftlimbs")))) (Var "shiftlow")) (Var "t2"))]) (Assign "t1" (Num 0));
      Store Sec (Op2 "[]" (Op1 ".d" (Var "r")) (Num 0)) (Var "t1");
      If (Op2 "<" (Var "shift") (Num 448)) (seq [If (Op2 "<" (Var "shift") (Num 384)) (Assign "t6" (Op2 "!=" (Var "shiftlow") (Num 0))) (Assign "t6" (Num 0));
      If (Var "t6") (Assign "t5" (Op2 "<<" (Load Sec (Op2 "[]" (Addr "l") (Op2 "+" (Num 2) (Var "shiftlimbs")))) (Var "shifthigh"))) (Assign "t5" (Num 0));
      Assign "t4" (Op2 "|" (Op2 ">>" (Load Sec (Op2 "[]" (Addr "l") (Op2 "+" (Num 1) (Var "shiftlimbs")))) (Var "shiftlow")) (Var "t5"))]) (Assign "t4" (Num 0));
      Store Sec (Op2 "[]" (Op1 ".d" (Var "r")) (Num 1)) (Var "t4");
      If (Op2 "<" (Var "shift") (Num 384)) (seq [If (Op2 "<" (Var "shift") (Num 320)) (Assign "t9" (Op2 "!=" (Var "shiftlow") (Num 0))) (Assign "t9" (Num 0));
      If (Var "t9") (Assign "t8" (Op2 "<<" (Load Sec (Op2 "[]" (Addr "l") (Op2 "+" (Num 3) (Var "shiftlimbs")))) (Var "shifthigh"))) (Assign "t8" (Num 0));
      Assign "t7" (Op2 "|" (Op2 ">>" (Load Sec (Op2 "[]" (Addr "l") (Op2 "+" (Num 2) (Var "shiftlimbs")))) (Var "shiftlow")) (Var "t8"))]) (Assign "t7" (Num 0));
      Store Sec (Op2 "[]" (Op1 ".d" (Var "r")) (Num 2)) (Var "t7");
      If (Op2 "<" (Var "shift") (Num 320)) (Assign "t10" (Op2 ">>" (Load Sec (Op2 "[]" (Addr "l") (Op2 "+" (Num 3) (Var "shiftlimbs")))) (Var "shiftlow"))) (Assign "t10" (Num 0));
      Store Sec (Op2 "[]" (Op1 ".d" (Var "r")) (Num 3)) (Var "t10");
      Call "_" "secp256k1_scalar_cadd_bit" [Var "r"; Num 0; Op2 "&" (Op2 ">>" (Load Sec (Op2 "[]" (Addr "l") (Op2 ">>" (Op2 "-" (Var "shift") (Num 1)) (Num 6)))) (Op2 "&" (Op2 "-" (Var "shift") (Num 1)) (Num 63))) (Num 1)]]).
(** src/scalar_4x64_impl.h:855-864 secp256k1_scalar_mul@SSP *)
Definition c64_scalar_mul__SSP : func := mkfunc "secp256k1_scalar_mul@SSP" [("r", false); ("a", false); ("b", false)] false
  (seq [Call "_" "secp256k1_scalar_mul_512@SSP" [Addr "l"; Var "a"; Var "b"];
      Call "_" "secp256k1_scalar_reduce_512" [Var "r"; Addr "l"]]).
(** src/scalar_impl.h:142-180 secp256k1_scalar_split_lambda *)
Definition c64_scalar_split_lambda : func := mkfunc "secp256k1_scalar_split_lambda" [("r1", false); ("r2", false); ("k", false)] false
  (seq [Call "_" "secp256k1_scalar_mul_shift_var@SSP" [Addr "c1"; Var "k"; Op0 "secp256k1_scalar_split_lambda.g1"; Num 384];
      Call "_" "secp256k1_scalar_mul_shift_var@SSP" [Addr "c2"; Var "k"; Op0 "secp256k1_scalar_split_lambda.g2"; Num 384];
      Call "_" "secp256k1_scalar_mul@SSP" [Addr "c1"; Addr "c1"; Op0 "secp256k1_scalar_split_lambda.minus_b1"];
      Call "_" "secp256k1_scalar_mul@SSP" [Addr "c2"; Addr "c2"; Op0 "secp256k1_scalar_split_lambda.minus_b2"];
      Call "_" "secp256k1_scalar_add" [Var "r2"; Addr "c1"; Addr "c2"];
      Call "_" "secp256k1_scalar_mul@SSP" [Var "r1"; Var "r2"; Op0 "secp256k1_const_lambda"];
      Call "_" "secp256k1_scalar_negate" [Var "r1"; Var "r1"];
      Call "_" "secp256k1_scalar_add" [Var "r1"; Var "r1"; Var "k"]]).
(** src/field_5x52_impl.h:201-204 secp256k1_fe_impl_set_int@P *)
Definition c64_fe_impl_set_int__P : func := mkfunc "secp256k1_fe_impl_set_int@P" [("r", false); ("a", false)] false
  (seq [Store Pub (Op2 "[]" (Op1 ".n" (Var "r")) (Num 0)) (Var "a");
      Store Pub (Op2 "[]" (Op1 ".n" (Var "r")) (Num 4)) (Num 0);
      Store Pub (Op2 "[]" (Op1 ".n" (Var "r")) (Num 3)) (Load Pub (Op2 "[]" (Op1 ".n" (Var "r")) (Num 4)));
      Store Pub (Op2 "[]" (Op1 ".n" (Var "r")) (Num 2)) (Load Pub (Op2 "[]" (Op1 ".n" (Var "r")) (Num 3)));
      Store Pub (Op2 "[]" (Op1 ".n" (Var "r")) (Num 1)) (Load Pub (Op2 "[]" (Op1 ".n" (Var "r")) (Num 2)))]).
(** src/group_impl.h:367-376 secp256k1_gej_set_ge@PP *)
Definition c64_gej_set_ge__PP : func := mkfunc "secp256k1_gej_set_ge@PP" [("r", false); ("a", false)] false
  (seq [Store Pub (Op1 ".infinity" (Var "r")) (Load Pub (Op1 ".infinity" (Var "a")));
      PubPrim "_" "copy" [Op1 ".x" (Var "r"); Op1 ".x" (Var "a")];
      PubPrim "_" "copy" [Op1 ".y" (Var "r"); Op1 ".y" (Var "a")];
      Call "_" "secp256k1_fe_impl_set_int@P" [Op1 ".z" (Var "r"); Num 1]]).
(** src/group_impl.h:322-329 secp256k1_gej_set_infinity@P *)
Definition c64_gej_set_infinity__P : func := mkfunc "secp256k1_gej_set_infinity@P" [("r", false)] false
  (seq [Store Pub (Op1 ".infinity" (Var "r")) (Num 1);
      Call "_" "secp256k1_fe_impl_set_int@P" [Op1 ".x" (Var "r"); Num 0];
      Call "_" "secp256k1_fe_impl_set_int@P" [Op1 ".y" (Var "r"); Num 0];
      Call "_" "secp256k1_fe_impl_set_int@P" [Op1 ".z" (Var "r"); Num 0]]).
(** src/int128_native_impl.h:11-13 secp256k1_u128_mul@P *)
Definition c64_u128_mul__P : func := mkfunc "secp256k1_u128_mul@P" [("r", false); ("a", false); ("b", false)] false
  (Store Pub (Var "r") (Op2 "*" (Op1 "(uint128_t)" (Var "a")) (Var "b"))).
(** src/int128_native_impl.h:15-17 secp256k1_u128_accum_mul@P *)
Definition c64_u128_accum_mul__P : func := mkfunc "secp256k1_u128_accum_mul@P" [("r", false); ("a", false); ("b", false)] false
  (Store Pub (Var "r") (Op2 "+" (Load Pub (Var "r")) (Op2 "*" (Op1 "(uint128_t)" (Var "a")) (Var "b")))).
(** src/field_5x52_int128_impl.h:18-152 secp256k1_fe_mul_inner@PPP *)
Definition c64_fe_mul_inner__PPP : func := mkfunc "secp256k1_fe_mul_inner@PPP" [("r", false); ("a", false); ("b", false)] false
  (seq [Assign "a0" (Load Pub (Op2 "[]" (Var "a") (Num 0)));
      Assign "a1" (Load Pub (Op2 "[]" (Var "a") (Num 1)));
      Assign "a2" (Load Pub (Op2 "[]" (Var "a") (Num 2)));
      Assign "a3" (Load Pub (Op2 "[]" (Var "a") (Num 3)));
      Assign "a4" (Load Pub (Op2 "[]" (Var "a") (Num 4)));
      Assign "M" (Num 4503599627370495);
      Assign "R" (Num 68719492368);
      Call "_" "secp256k1_u128_mul@P" [Addr "d"; Var "a0"; Load Pub (Op2 "[]" (Var "b") (Num 3))];
      Call "_" "secp256k1_u128_accum_mul@P" [Addr "d"; Var "a1"; Load Pub (Op2 "[]" (Var "b") (Num 2))];
      Call "_" "secp256k1_u128_accum_mul@P" [Addr "d"; Var "a2"; Load Pub (Op2 "[]" (Var "b") (Num 1))];
      Call "_" "secp256k1_u128_accum_mul@P" [Addr "d"; Var "a3"; Load Pub (Op2 "[]" (Var "b") (Num 0))];
      Call "_" "secp256k1_u128_mul@P" [Addr "c"; Var "a4"; Load Pub (Op2 "[]" (Var "b") (Num 4))];
      Call "t1" "secp256k1_u128_to_u64@P" [Addr "c"];
      Call "_" "secp256k1_u128_accum_mul@P" [Addr "d"; Var "R"; Var "t1"];
      Call "_" "secp256k1_u128_rshift@P" [Addr "c"; Num 64];
      Call "t2" "secp256k1_u128_to_u64@P" [Addr "d"];
      Assign "t3" (Op2 "&" (Var "t2") (Var "M"));
      Call "_" "secp256k1_u128_rshift@P" [Addr "d"; Num 52];
      Call "_" "secp256k1_u128_accum_mul@P" [Addr "d"; Var "a0"; Load Pub (Op2 "[]" (Var "b") (Num 4))];
      Call "_" "secp256k1_u128_accum_mul@P" [Addr "d"; Var "a1"; Load Pub (Op2 "[]" (Var "b") (Num 3))];
      Call "_" "secp256k1_u128_accum_mul@P" [Addr "d"; Var "a2"; Load Pub (Op2 "[]" (Var "b") (Num 2))];
      Call "_" "secp256k1_u128_accum_mul@P" [Addr "d"; Var "a3"; Load Pub (Op2 "[]" (Var "b") (Num 1))];
      Call "_" "secp256k1_u128_accum_mul@P" [Addr "d"; Var "a4"; Load Pub (Op2 "[]" (Var "b") (Num 0))];
      Call "t3" "secp256k1_u128_to_u64@P" [Addr "c"];
      Call "_" "secp256k1_u128_accum_mul@P" [Addr "d"; Op2 "<<" (Var "R") (Num 12); Var "t3"];
      Call "t4" "secp256k1_u128_to_u64@P" [Addr "d"];
      Assign "t4" (Op2 "&" (Var "t4") (Var "M"));
      Call "_" "secp256k1_u128_rshift@P" [Addr "d"; Num 52];
      Assign "tx" (Op2 ">>" (Var "t4") (Num 48));
      Assign "t4" (Op2 "&" (Var "t4") (Op2 ">>" (Var "M") (Num 4)));
      Call "_" "secp256k1_u128_mul@P" [Addr "c"; Var "a0"; Load Pub (Op2 "[]" (Var "b") (Num 0))];
      Call "_" "secp256k1_u128_accum_mul@P" [Addr "d"; Var "a1"; Load Pub (Op2 "[]" (Var "b") (Num 4))];
      Call "_" "secp256k1_u128_accum_mul@P" [Addr "d"; Var "a2"; Load Pub (Op2 "[]" (Var "b") (Num 3))];
      Call "_" "secp256k1_u128_accum_mul@P" [Addr "d"; Var "a3"; Load Pub (Op2 "[]" (Var "b") (Num 2))];
      Call "_" "secp256k1_u128_accum_mul@P" [Addr "d"; Var "a4"; Load Pub (Op2 "[]" (Var "b") (Num 1))];
      Call "t5" "secp256k1_u128_to_u64@P" [Addr "d"];
      Assign "u0" (Op2 "&" (Var "t5") (Var "M"));
      Call "_" "secp256k1_u128_rshift@P" [Addr "d"; Num 52];
      Assign "u0" (Op2 "|" (Op2 "<<" (Var "u0") (Num 4)) (Var "tx"));
      Call "_" "secp256k1_u128_accum_mul@P" [Addr "c"; Var "u0"; Op2 ">>" (Var "R") (Num 4)];
      Call "t6" "secp256k1_u128_to_u64@P" [Addr "c"];
      Store Pub (Op2 "[]" (Var "r") (Num 0)) (Op2 "&" (Var "t6") (Var "M"));
      Call "_" "secp256k1_u128_rshift@P" [Addr "c"; Num 52];
      Call "_" "secp256k1_u128_accum_mul@P" [Addr "c"; Var "a0"; Load Pub (Op2 "[]" (Var "b") (Num 1))];
      Call "_" "secp256k1_u128_accum_mul@P" [Addr "c"; Var "a1"; Load Pub (Op2 "[]" (Var "b") (Num 0))];
      Call "_" "secp256k1_u128_accum_mul@P" [Addr "d"; Var "a2"; Load Pub (Op2 "[]" (Var "b") (Num 4))];
      Call "_" "secp256k1_u128_accum_mul@P" [Addr "d"; Var "a3"; Load Pub (Op2 "[]" (Var "b") (Num 3))];
      Call "_" "secp256k1_u128_accum_mul@P" [Addr "d"; Var "a4"; Load Pub (Op2 "[]" (Var "b") (Num 2))];
      Call "t7" "secp256k1_u128_to_u64@P" [Addr "d"];
      Call "_" "secp256k1_u128_accum_mul@P" [Addr "c"; Op2 "&" (Var "t7") (Var "M"); Var "R"];
      Call "_" "secp256k1_u128_rshift@P" [Addr "d"; Num 52];
      Call "t8" "secp256k1_u128_to_u64@P" [Addr "c"];
      Store Pub (Op2 "[]" (Var "r") (Num 1)) (Op2 "&" (Var "t8") (Var "M"));
      Call "_" "secp256k1_u128_rshift@P" [Addr "c"; Num 52];
      Call "_" "secp256k1_u128_accum_mul@P" [Addr "c"; Var "a0"; Load Pub (Op2 "[]" (Var "b") (Num 2))];
      Call "_" "secp256k1_u128_accum_mul@P" [Addr "c"; Var "a1"; Load Pub (Op2 "[]" (Var "b") (Num 1))];
      Call "_" "secp256k1_u128_accum_mul@P" [Addr "c"; Var "a2"; Load Pub (Op2 "[]" (Var "b") (Num 0))];
      Call "_" "secp256k1_u128_accum_mul@P" [Addr "d"; Var "a3"; Load Pub (Op2 "[]" (Var "b") (Num 4))];
      Call "_" "secp256k1_u128_accum_mul@P" [Addr "d"; Var "a4"; Load Pub (Op2 "[]" (Var "b") (Num 3))];
      Call "t9" "secp256k1_u128_to_u64@P" [Addr "d"];
      Call "_" "secp256k1_u128_accum_mul@P" [Addr "c"; Var "R"; Var "t9"];
      Call "_" "secp256k1_u128_rshift@P" [Addr "d"; Num 64];
      Call "t10" "secp256k1_u128_to_u64@P" [Addr "c"];
      Store Pub (Op2 "[]" (Var "r") (Num 2)) (Op2 "&" (Var "t10") (Var "M"));
      Call "_" "secp256k1_u128_rshift@P" [Addr "c"; Num 52];
      Call "t11" "secp256k1_u128_to_u64@P" [Addr "d"];
      Call "_" "secp256k1_u128_accum_mul@P" [Addr "c"; Op2 "<<" (Var "R") (Num 12); Var "t11"];
      Call "_" "secp256k1_u128_accum_u64@P" [Addr "c"; Var "t3"];
      Call "t12" "secp256k1_u128_to_u64@P" [Addr "c"];
      Store Pub (Op2 "[]" (Var "r") (Num 3)) (Op2 "&" (Var "t12") (Var "M"));
      Call "_" "secp256k1_u128_rshift@P" [Addr "c"; Num 52];
      Call "t13" "secp256k1_u128_to_u64@P" [Addr "c"];
      Store Pub (Op2 "[]" (Var "r") (Num 4)) (Op2 "+" (Var "t13") (Var "t4"))]).
(** src/field_5x52_impl.h:341-343 secp256k1_fe_impl_mul@PPP *)
Definition c64_fe_impl_mul__PPP : func := mkfunc "secp256k1_fe_impl_mul@PPP" [("r", false); ("a", false); ("b", false)] false
  (Call "_" "secp256k1_fe_mul_inner@PPP" [Op1 ".n" (Var "r"); Op1 ".n" (Var "a"); Op1 ".n" (Var "b")]).
(** src/field_5x52_int128_impl.h:154-272 secp256k1_fe_sqr_inner@PP *)
Definition c64_fe_sqr_inner__PP : func := mkfunc "secp256k1_fe_sqr_inner@PP" [("r", false); ("a", false)] false
  (seq [Assign "a0" (Load Pub (Op2 "[]" (Var "a") (Num 0)));
      Assign "a1" (Load Pub (Op2 "[]" (Var "a") (Num 1)));
      Assign "a2" (Load Pub (Op2 "[]" (Var "a") (Num 2)));
      Assign "a3" (Load Pub (Op2 "[]" (Var "a") (Num 3)));
      Assign "a4" (Load Pub (Op2 "[]" (Var "a") (Num 4)));
      Assign "M" (Num 4503599627370495);
      Assign "R" (Num 68719492368);
      Call "_" "secp256k1_u128_mul@P" [Addr "d"; Op2 "*" (Var "a0") (Num 2); Var "a3"];
      Call "_" "secp256k1_u128_accum_mul@P" [Addr "d"; Op2 "*" (Var "a1") (Num 2); Var "a2"];
      Call "_" "secp256k1_u128_mul@P" [Addr "c"; Var "a4"; Var "a4"];
      Call "t1" "secp256k1_u128_to_u64@P" [Addr "c"];
      Call "_" "secp256k1_u128_accum_mul@P" [Addr "d"; Var "R"; Var "t1"];
      Call "_" "secp256k1_u128_rshift@P" [Addr "c"; Num 64];
      Call "t2" "secp256k1_u128_to_u64@P" [Addr "d"];
      Assign "t3" (Op2 "&" (Var "t2") (Var "M"));
      Call "_" "secp256k1_u128_rshift@P" [Addr "d"; Num 52];
      Assign "a4" (Op2 "*" (Var "a4") (Num 2));
      Call "_" "secp256k1_u128_accum_mul@P" [Addr "d"; Var "a0"; Var "a4"];
      Call "_" "secp256k1_u128_accum_mul@P" [Addr "d"; Op2 "*" (Var "a1") (Num 2); Var "a3"];
      Call "_" "secp256k1_u128_accum_mul@P" [Addr "d"; Var "a2"; Var "a2"];
      Call "t3" "secp256k1_u128_to_u64@P" [Addr "c"];
      Call "_" "secp256k1_u128_accum_mul@P" [Addr "d"; Op2 "<<" (Var "R") (Num 12); Var "t3"];
      Call "t4" "secp256k1_u128_to_u64@P" [Addr "d"];
      Assign "t4" (Op2 "&" (Var "t4") (Var "M"));
      Call "_" "secp256k1_u128_rshift@P" [Addr "d"; Num 52];
      Assign "tx" (Op2 ">>" (Var "t4") (Num 48));
      Assign "t4" (Op2 "&" (Var "t4") (Op2 ">>" (Var "M") (Num 4)));
      Call "_" "secp256k1_u128_mul@P" [Addr "c"; Var "a0"; Var "a0"];
      Call "_" "secp256k1_u128_accum_mul@P" [Addr "d"; Var "a1"; Var "a4"];
      Call "_" "secp256k1_u128_accum_mul@P" [Addr "d"; Op2 "*" (Var "a2") (Num 2); Var "a3"];
      Call "t5" "secp256k1_u128_to_u64@P" [Addr "d"];
      Assign "u0" (Op2 "&" (Var "t5") (Var "M"));
      Call "_" "secp256k1_u128_rshift@P" [Addr "d"; Num 52];
      Assign "u0" (Op2 "|" (Op2 "<<" (Var "u0") (Num 4)) (Var "tx"));
      Call "_" "secp256k1_u128_accum_mul@P" [Addr "c"; Var "u0"; Op2 ">>" (Var "R") (Num 4)];
      Call "t6" "secp256k1_u128_to_u64@P" [Addr "c"];
      Store Pub (Op2 "[]" (Var "r") (Num 0)) (Op2 "&" (Var "t6") (Var "M"));
      Call "_" "secp256k1_u128_rshift@P" [Addr "c"; Num 52];
      Assign "a0" (Op2 "*" (Var "a0") (Num 2));
      Call "_" "secp256k1_u128_accum_mul@P" [Addr "c"; Var "a0"; Var "a1"];
      Call "_" "secp256k1_u128_accum_mul@P" [Addr "d"; Var "a2"; Var "a4"];
      Call "_" "secp256k1_u128_accum_mul@P" [Addr "d"; Var "a3"; Var "a3"];
      Call "t7" "secp256k1_u128_to_u64@P" [Addr "d"];
      Call "_" "secp256k1_u128_accum_mul@P" [Addr "c"; Op2 "&" (Var "t7") (Var "M"); Var "R"];
      Call "_" "secp256k1_u128_rshift@P" [Addr "d"; Num 52];
      Call "t8" "secp256k1_u128_to_u64@P" [Addr "c"];
      Store Pub (Op2 "[]" (Var "r") (Num 1)) (Op2 "&" (Var "t8") (Var "M"));
      Call "_" "secp256k1_u128_rshift@P" [Addr "c"; Num 52];
      Call "_" "secp256k1_u128_accum_mul@P" [Addr "c"; Var "a0"; Var "a2"];
      Call "_" "secp256k1_u128_accum_mul@P" [Addr "c"; Var "a1"; Var "a1"];
      Call "_" "secp256k1_u128_accum_mul@P" [Addr "d"; Var "a3"; Var "a4"];
      Call "t9" "secp256k1_u128_to_u64@P" [Addr "d"];
      Call "_" "secp256k1_u128_accum_mul@P" [Addr "c"; Var "R"; Var "t9"];
      Call "_" "secp256k1_u128_rshift@P" [Addr "d"; Num 64];
      Call "t10" "secp256k1_u128_to_u64@P" [Addr "c"];
      Store Pub (Op2 "[]" (Var "r") (Num 2)) (Op2 "&" (Var "t10") (Var "M"));
      Call "_" "secp256k1_u128_rshift@P" [Addr "c"; Num 52];
      Call "t11" "secp256k1_u128_to_u64@P" [Addr "d"];
      Call "_" "secp256k1_u128_accum_mul@P" [Addr "c"; Op2 "<<" (Var "R") (Num 12); Var "t11"];
      Call "_" "secp256k1_u128_accum_u64@P" [Addr "c"; Var "t3"];
      Call "t12" "secp256k1_u128_to_u64@P" [Addr "c"];
      Store Pub (Op2 "[]" (Var "r") (Num 3)) (Op2 "&" (Var "t12") (Var "M"));
      Call "_" "secp256k1_u128_rshift@P" [Addr "c"; Num 52];
      Call "t13" "secp256k1_u128_to_u64@P" [Addr "c"];
      Store Pub (Op2 "[]" (Var "r") (Num 4)) (Op2 "+" (Var "t13") (Var "t4"))]).
(** src/field_5x52_impl.h:345-347 secp256k1_fe_impl_sqr@PP *)
Definition c64_fe_impl_sqr__PP : func := mkfunc "secp256k1_fe_impl_sqr@PP" [("r", false); ("a", false)] false
  (Call "_" "secp256k1_fe_sqr_inner@PP" [Op1 ".n" (Var "r"); Op1 ".n" (Var "a")]).
(** src/field_5x52_impl.h:321-327 secp256k1_fe_impl_mul_int_unchecked@P *)
Definition c64_fe_impl_mul_int_unchecked__P : func := mkfunc "secp256k1_fe_impl_mul_int_unchecked@P" [("r", false); ("a", false)] false
  (seq [Store Pub (Op2 "[]" (Op1 ".n" (Var "r")) (Num 0)) (Op2 "*" (Load Pub (Op2 "[]" (Op1 ".n" (Var "r")) (Num 0))) (Var "a"));
      Store Pub (Op2 "[]" (Op1 ".n" (Var "r")) (Num 1)) (Op2 "*" (Load Pub (Op2 "[]" (Op1 ".n" (Var "r")) (Num 1))) (Var "a"));
      Store Pub (Op2 "[]" (Op1 ".n" (Var "r")) (Num 2)) (Op2 "*" (Load Pub (Op2 "[]" (Op1 ".n" (Var "r")) (Num 2))) (Var "a"));
      Store Pub (Op2 "[]" (Op1 ".n" (Var "r")) (Num 3)) (Op2 "*" (Load Pub (Op2 "[]" (Op1 ".n" (Var "r")) (Num 3))) (Var "a"));
      Store Pub (Op2 "[]" (Op1 ".n" (Var "r")) (Num 4)) (Op2 "*" (Load Pub (Op2 "[]" (Op1 ".n" (Var "r")) (Num 4))) (Var "a"))]).
(** src/field_5x52_impl.h:362-414 secp256k1_fe_impl_half@P *)
Definition c64_fe_impl_half__P : func := mkfunc "secp256k1_fe_impl_half@P" [("r", false)] false
  (seq [Assign "t0" (Load Pub (Op2 "[]" (Op1 ".n" (Var "r")) (Num 0)));
      Assign "t1" (Load Pub (Op2 "[]" (Op1 ".n" (Var "r")) (Num 1)));
      Assign "t2" (Load Pub (Op2 "[]" (Op1 ".n" (Var "r")) (Num 2)));
      Assign "t3" (Load Pub (Op2 "[]" (Op1 ".n" (Var "r")) (Num 3)));
      Assign "t4" (Load Pub (Op2 "[]" (Op1 ".n" (Var "r")) (Num 4)));
      Assign "one" (Op1 "(uint64_t)" (Num 1));
      Assign "mask" (Op2 ">>" (Op1 "-" (Op2 "&" (Var "t0") (Var "one"))) (Num 12));
      Assign "t0" (Op2 "+" (Var "t0") (Op2 "&" (Num 4503595332402223) (Var "mask")));
      Assign "t1" (Op2 "+" (Var "t1") (Var "mask"));
      Assign "t2" (Op2 "+" (Var "t2") (Var "mask"));
      Assign "t3" (Op2 "+" (Var "t3") (Var "mask"));
      Assign "t4" (Op2 "+" (Var "t4") (Op2 ">>" (Var "mask") (Num 4)));
      Store Pub (Op2 "[]" (Op1 ".n" (Var "r")) (Num 0)) (Op2 "+" (Op2 ">>" (Var "t0") (Num 1)) (Op2 "<<" (Op2 "&" (Var "t1") (Var "one")) (Num 51)));
      Store Pub (Op2 "[]" (Op1 ".n" (Var "r")) (Num 1)) (Op2 "+" (Op2 ">>" (Var "t1") (Num 1)) (Op2 "<<" (Op2 "&" (Var "t2") (Var "one")) (Num 51)));
      Store Pub (Op2 "[]" (Op1 ".n" (Var "r")) (Num 2)) (Op2 "+" (Op2 ">>" (Var "t2") (Num 1)) (Op2 "<<" (Op2 "&" (Var "t3") (Var "one")) (Num 51)));
      Store Pub (Op2 "[]" (Op1 ".n" (Var "r")) (Num 3)) (Op2 "+" (Op2 ">>" (Var "t3") (Num 1)) (Op2 "<<" (Op2 "&" (Var "t4") (Var "one")) (Num 51)));
      Store Pub (Op2 "[]" (Op1 ".n" (Var "r")) (Num 4)) (Op2 ">>" (Var "t4") (Num 1))]).
(** src/field_5x52_impl.h:333-339 secp256k1_fe_impl_add@PP *)
Definition c64_fe_impl_add__PP : func := mkfunc "secp256k1_fe_impl_add@PP" [("r", false); ("a", false)] false
  (seq [Store Pub (Op2 "[]" (Op1 ".n" (Var "r")) (Num 0)) (Op2 "+" (Load Pub (Op2 "[]" (Op1 ".n" (Var "r")) (Num 0))) (Load Pub (Op2 "[]" (Op1 ".n" (Var "a")) (Num 0))));
      Store Pub (Op2 "[]" (Op1 ".n" (Var "r")) (Num 1)) (Op2 "+" (Load Pub (Op2 "[]" (Op1 ".n" (Var "r")) (Num 1))) (Load Pub (Op2 "[]" (Op1 ".n" (Var "a")) (Num 1))));
      Store Pub (Op2 "[]" (Op1 ".n" (Var "r")) (Num 2)) (Op2 "+" (Load Pub (Op2 "[]" (Op1 ".n" (Var "r")) (Num 2))) (Load Pub (Op2 "[]" (Op1 ".n" (Var "a")) (Num 2))));
      Store Pub (Op2 "[]" (Op1 ".n" (Var "r")) (Num 3)) (Op2 "+" (Load Pub (Op2 "[]" (Op1 ".n" (Var "r")) (Num 3))) (Load Pub (Op2 "[]" (Op1 ".n" (Var "a")) (Num 3))));
      Store Pub (Op2 "[]" (Op1 ".n" (Var "r")) (Num 4)) (Op2 "+" (Load Pub (Op2 "[]" (Op1 ".n" (Var "r")) (Num 4))) (Load Pub (Op2 "[]" (Op1 ".n" (Var "a")) (Num 4))))]).
(** src/group_impl.h:460-493 secp256k1_gej_double@PP *)
Definition c64_gej_double__PP : func := mkfunc "secp256k1_gej_double@PP" [("r", false); ("a", false)] false
  (seq [Store Pub (Op1 ".infinity" (Var "r")) (Load Pub (Op1 ".infinity" (Var "a")));
      Call "_" "secp256k1_fe_impl_mul@PPP" [Op1 ".z" (Var "r"); Op1 ".z" (Var "a"); Op1 ".y" (Var "a")];
      Call "_" "secp256k1_fe_impl_sqr@PP" [Addr "s"; Op1 ".y" (Var "a")];
      Call "_" "secp256k1_fe_impl_sqr@PP" [Addr "l"; Op1 ".x" (Var "a")];
      Call "_" "secp256k1_fe_impl_mul_int_unchecked@P" [Addr "l"; Num 3];
      Call "_" "secp256k1_fe_impl_half@P" [Addr "l"];
      Call "_" "secp256k1_fe_impl_negate_unchecked@PP" [Addr "t"; Addr "s"; Num 1];
      Call "_" "secp256k1_fe_impl_mul@PPP" [Addr "t"; Addr "t"; Op1 ".x" (Var "a")];
      Call "_" "secp256k1_fe_impl_sqr@PP" [Op1 ".x" (Var "r"); Addr "l"];
      Call "_" "secp256k1_fe_impl_add@PP" [Op1 ".x" (Var "r"); Addr "t"];
      Call "_" "secp256k1_fe_impl_add@PP" [Op1 ".x" (Var "r"); Addr "t"];
      Call "_" "secp256k1_fe_impl_sqr@PP" [Addr "s"; Addr "s"];
      Call "_" "secp256k1_fe_impl_add@PP" [Addr "t"; Op1 ".x" (Var "r")];
      Call "_" "secp256k1_fe_impl_mul@PPP" [Op1 ".y" (Var "r"); Addr "t"; Addr "l"];
      Call "_" "secp256k1_fe_impl_add@PP" [Op1 ".y" (Var "r"); Addr "s"];
      Call "_" "secp256k1_fe_impl_negate_unchecked@PP" [Op1 ".y" (Var "r"); Op1 ".y" (Var "r"); Num 2]]).
(** src/group_impl.h:495-524 secp256k1_gej_double_var@PPS *)
Definition c64_gej_double_var__PPS : func := mkfunc "secp256k1_gej_double_var@PPS" [("r", false); ("a", false); ("rzr", false)] false
  (seq [If (Load Pub (Op1 ".infinity" (Var "a"))) (seq [Call "_" "secp256k1_gej_set_infinity@P" [Var "r"];
      If (Op2 "!=" (Var "rzr") (Num 0)) (Call "_" "secp256k1_fe_impl_set_int" [Var "rzr"; Num 1]) (Skip);
      Return (Num 0)]) (Skip);
      If (Op2 "!=" (Var "rzr") (Num 0)) (seq [Prim "copy" [Var "rzr"; Op1 ".y" (Var "a")];
      Call "_" "secp256k1_fe_impl_normalize_weak" [Var "rzr"]]) (Skip);
      Call "_" "secp256k1_gej_double@PP" [Var "r"; Var "a"]]).
(** src/group_impl.h:132-141 secp256k1_ge_set_xy@PPP *)
Definition c64_ge_set_xy__PPP : func := mkfunc "secp256k1_ge_set_xy@PPP" [("r", false); ("x", false); ("y", false)] false
  (seq [Store Pub (Op1 ".infinity" (Var "r")) (Num 0);
      PubPrim "_" "copy" [Op1 ".x" (Var "r"); Var "x"];
      PubPrim "_" "copy" [Op1 ".y" (Var "r"); Var "y"]]).
(** src/group_impl.h:99-113 secp256k1_ge_set_gej_zinv@PPP *)
Definition c64_ge_set_gej_zinv__PPP : func := mkfunc "secp256k1_ge_set_gej_zinv@PPP" [("r", false); ("a", false); ("zi", false)] false
  (seq [Call "_" "secp256k1_fe_impl_sqr@PP" [Addr "zi2"; Var "zi"];
      Call "_" "secp256k1_fe_impl_mul@PPP" [Addr "zi3"; Addr "zi2"; Var "zi"];
      Call "_" "secp256k1_fe_impl_mul@PPP" [Op1 ".x" (Var "r"); Op1 ".x" (Var "a"); Addr "zi2"];
      Call "_" "secp256k1_fe_impl_mul@PPP" [Op1 ".y" (Var "r"); Op1 ".y" (Var "a"); Addr "zi3"];
      Store Pub (Op1 ".infinity" (Var "r")) (Load Pub (Op1 ".infinity" (Var "a")))]).
(** src/field_5x52_impl.h:160-199 secp256k1_fe_impl_normalizes_to_zero_var@P *)
Definition c64_fe_impl_normalizes_to_zero_var__P : func := mkfunc "secp256k1_fe_impl_normalizes_to_zero_var@P" [("r", false)] false
  (seq [Assign "t0" (Load Pub (Op2 "[]" (Op1 ".n" (Var "r")) (Num 0)));
      Assign "t4" (Load Pub (Op2 "[]" (Op1 ".n" (Var "r")) (Num 4)));
      Assign "x" (Op2 ">>" (Var "t4") (Num 48));
      Assign "t0" (Op2 "+" (Var "t0") (Op2 "*" (Var "x") (Num 4294968273)));
      Assign "z0" (Op2 "&" (Var "t0") (Num 4503599627370495));
      Assign "z1" (Op2 "^" (Var "z0") (Num 4294968272));
      If (Op2 "&" (Op2 "!=" (Var "z0") (Num 0)) (Op2 "!=" (Var "z1") (Num 4503599627370495))) (Return (Num 0)) (Skip);
      Assign "t1" (Load Pub (Op2 "[]" (Op1 ".n" (Var "r")) (Num 1)));
      Assign "t2" (Load Pub (Op2 "[]" (Op1 ".n" (Var "r")) (Num 2)));
      Assign "t3" (Load Pub (Op2 "[]" (Op1 ".n" (Var "r")) (Num 3)));
      Assign "t4" (Op2 "&" (Var "t4") (Num 281474976710655));
      Assign "t1" (Op2 "+" (Var "t1") (Op2 ">>" (Var "t0") (Num 52)));
      Assign "t2" (Op2 "+" (Var "t2") (Op2 ">>" (Var "t1") (Num 52)));
      Assign "t1" (Op2 "&" (Var "t1") (Num 4503599627370495));
      Assign "z0" (Op2 "|" (Var "z0") (Var "t1"));
      Assign "z1" (Op2 "&" (Var "z1") (Var "t1"));
      Assign "t3" (Op2 "+" (Var "t3") (Op2 ">>" (Var "t2") (Num 52)));
      Assign "t2" (Op2 "&" (Var "t2") (Num 4503599627370495));
      Assign "z0" (Op2 "|" (Var "z0") (Var "t2"));
      Assign "z1" (Op2 "&" (Var "z1") (Var "t2"));
      Assign "t4" (Op2 "+" (Var "t4") (Op2 ">>" (Var "t3") (Num 52)));
      Assign "t3" (Op2 "&" (Var "t3") (Num 4503599627370495));
      Assign "z0" (Op2 "|" (Var "z0") (Var "t3"));
      Assign "z1" (Op2 "&" (Var "z1") (Var "t3"));
      Assign "z0" (Op2 "|" (Var "z0") (Var "t4"));
      Assign "z1" (Op2 "&" (Var "z1") (Op2 "^" (Var "t4") (Num 4222124650659840)));
      Return (Op2 "|" (Op2 "==" (Var "z0") (Num 0)) (Op2 "==" (Var "z1") (Num 4503599627370495)))]).
(** src/field_5x52_impl.h:80-97 secp256k1_fe_impl_normalize_weak@P *)
Definition c64_fe_impl_normalize_weak__P : func := mkfunc "secp256k1_fe_impl_normalize_weak@P" [("r", false)] false
  (seq [Assign "t0" (Load Pub (Op2 "[]" (Op1 ".n" (Var "r")) (Num 0)));
      Assign "t1" (Load Pub (Op2 "[]" (Op1 ".n" (Var "r")) (Num 1)));
      Assign "t2" (Load Pub (Op2 "[]" (Op1 ".n" (Var "r")) (Num 2)));
      Assign "t3" (Load Pub (Op2 "[]" (Op1 ".n" (Var "r")) (Num 3)));
      Assign "t4" (Load Pub (Op2 "[]" (Op1 ".n" (Var "r")) (Num 4)));
      Assign "x" (Op2 ">>" (Var "t4") (Num 48));
      Assign "t4" (Op2 "&" (Var "t4") (Num 281474976710655));
      Assign "t0" (Op2 "+" (Var "t0") (Op2 "*" (Var "x") (Num 4294968273)));
      Assign "t1" (Op2 "+" (Var "t1") (Op2 ">>" (Var "t0") (Num 52)));
      Assign "t0" (Op2 "&" (Var "t0") (Num 4503599627370495));
      Assign "t2" (Op2 "+" (Var "t2") (Op2 ">>" (Var "t1") (Num 52)));
      Assign "t1" (Op2 "&" (Var "t1") (Num 4503599627370495));
      Assign "t3" (Op2 "+" (Var "t3") (Op2 ">>" (Var "t2") (Num 52)));
      Assign "t2" (Op2 "&" (Var "t2") (Num 4503599627370495));
      Assign "t4" (Op2 "+" (Var "t4") (Op2 ">>" (Var "t3") (Num 52)));
      Assign "t3" (Op2 "&" (Var "t3") (Num 4503599627370495));
      Store Pub (Op2 "[]" (Op1 ".n" (Var "r")) (Num 0)) (Var "t0");
      Store Pub (Op2 "[]" (Op1 ".n" (Var "r")) (Num 1)) (Var "t1");
      Store Pub (Op2 "[]" (Op1 ".n" (Var "r")) (Num 2)) (Var "t2");
      Store Pub (Op2 "[]" (Op1 ".n" (Var "r")) (Num 3)) (Var "t3");
      Store Pub (Op2 "[]" (Op1 ".n" (Var "r")) (Num 4)) (Var "t4")]).
(** src/group_impl.h:495-524 secp256k1_gej_double_var@PPP *)
Definition c64_gej_double_var__PPP : func := mkfunc "secp256k1_gej_double_var@PPP" [("r", false); ("a", false); ("rzr", false)] false
  (seq [If (Load Pub (Op1 ".infinity" (Var "a"))) (seq [Call "_" "secp256k1_gej_set_infinity@P" [Var "r"];
      If (Op2 "!=" (Var "rzr") (Num 0)) (Call "_" "secp256k1_fe_impl_set_int@P" [Var "rzr"; Num 1]) (Skip);
      Return (Num 0)]) (Skip);
      If (Op2 "!=" (Var "rzr") (Num 0)) (seq [PubPrim "_" "copy" [Var "rzr"; Op1 ".y" (Var "a")];
      Call "_" "secp256k1_fe_impl_normalize_weak@P" [Var "rzr"]]) (Skip);
      Call "_" "secp256k1_gej_double@PP" [Var "r"; Var "a"]]).
(** src/group_impl.h:590-651 secp256k1_gej_add_ge_var@PPPP *)
Definition c64_gej_add_ge_var__PPPP : func := mkfunc "secp256k1_gej_add_ge_var@PPPP" [("r", false); ("a", false); ("b", false); ("rzr", false)] false
  (seq [If (Load Pub (Op1 ".infinity" (Var "a"))) (seq [Call "_" "secp256k1_gej_set_ge@PP" [Var "r"; Var "b"];
      Return (Num 0)]) (Skip);
      If (Load Pub (Op1 ".infinity" (Var "b"))) (seq [If (Op2 "!=" (Var "rzr") (Num 0)) (Call "_" "secp256k1_fe_impl_set_int@P" [Var "rzr"; Num 1]) (Skip);
      PubPrim "_" "copy" [Var "r"; Var "a"];
      Return (Num 0)]) (Skip);
      Call "_" "secp256k1_fe_impl_sqr@PP" [Addr "z12"; Op1 ".z" (Var "a")];
      PubPrim "_" "copy" [Addr "u1"; Op1 ".x" (Var "a")];
      Call "_" "secp256k1_fe_impl_mul@PPP" [Addr "u2"; Op1 ".x" (Var "b"); Addr "z12"];
      PubPrim "_" "copy" [Addr "s1"; Op1 ".y" (Var "a")];
      Call "_" "secp256k1_fe_impl_mul@PPP" [Addr "s2"; Op1 ".y" (Var "b"); Addr "z12"];
      Call "_" "secp256k1_fe_impl_mul@PPP" [Addr "s2"; Addr "s2"; Op1 ".z" (Var "a")];
      Call "_" "secp256k1_fe_impl_negate_unchecked@PP" [Addr "h"; Addr "u1"; Num 4];
      Call "_" "secp256k1_fe_impl_add@PP" [Addr "h"; Addr "u2"];
      Call "_" "secp256k1_fe_impl_negate_unchecked@PP" [Addr "i"; Addr "s2"; Num 1];
      Call "_" "secp256k1_fe_impl_add@PP" [Addr "i"; Addr "s1"];
      Call "t1" "secp256k1_fe_impl_normalizes_to_zero_var@P" [Addr "h"];
      If (Var "t1") (seq [Call "t2" "secp256k1_fe_impl_normalizes_to_zero_var@P" [Addr "i"];
      If (Var "t2") (Call "_" "secp256k1_gej_double_var@PPP" [Var "r"; Var "a"; Var "rzr"]) (seq [If (Op2 "!=" (Var "rzr") (Num 0)) (Call "_" "secp256k1_fe_impl_set_int@P" [Var "rzr"; Num 0]) (Skip);
      Call "_" "secp256k1_gej_set_infinity@P" [Var "r"]]);
      Return (Num 0)]) (Skip);
      Store Pub (Op1 ".infinity" (Var "r")) (Num 0);
      If (Op2 "!=" (Var "rzr") (Num 0)) (PubPrim "_" "copy" [Var "rzr"; Addr "h"]) (Skip);
      Call "_" "secp256k1_fe_impl_mul@PPP" [Op1 ".z" (Var "r"); Op1 ".z" (Var "a"); Addr "h"];
      Call "_" "secp256k1_fe_impl_sqr@PP" [Addr "h2"; Addr "h"];
      Call "_" "secp256k1_fe_impl_negate_unchecked@PP" [Addr "h2"; Addr "h2"; Num 1];
      Call "_" "secp256k1_fe_impl_mul@PPP" [Addr "h3"; Addr "h2"; Addr "h"];
      Call "_" "secp256k1_fe_impl_mul@PPP" [Addr "t"; Addr "u1"; Addr "h2"];
      Call "_" "secp256k1_fe_impl_sqr@PP" [Op1 ".x" (Var "r"); Addr "i"];
      Call "_" "secp256k1_fe_impl_add@PP" [Op1 ".x" (Var "r"); Addr "h3"];
      Call "_" "secp256k1_fe_impl_add@PP" [Op1 ".x" (Var "r"); Addr "t"];
      Call "_" "secp256k1_fe_impl_add@PP" [Op1 ".x" (Var "r"); Addr "t"];
      Call "_" "secp256k1_fe_impl_add@PP" [Addr "t"; Op1 ".x" (Var "r")];
      Call "_" "secp256k1_fe_impl_mul@PPP" [Op1 ".y" (Var "r"); Addr "t"; Addr "i"];
      Call "_" "secp256k1_fe_impl_mul@PPP" [Addr "h3"; Addr "h3"; Addr "s1"];
      Call "_" "secp256k1_fe_impl_add@PP" [Op1 ".y" (Var "r"); Addr "h3"];
      If (Op2 "!=" (Var "rzr") (Num 0)) (Skip) (Skip)]).
(** src/ecmult_impl.h:73-115 secp256k1_ecmult_odd_multiples_table@PPPP *)
Definition c64_ecmult_odd_multiples_table__PPPP : func := mkfunc "secp256k1_ecmult_odd_multiples_table@PPPP" [("n", false); ("pre_a", false); ("zr", false); ("z", false); ("a", false)] false
  (seq [Call "_" "secp256k1_gej_double_var@PPS" [Addr "d"; Var "a"; Num 0];
      Call "_" "secp256k1_ge_set_xy@PPP" [Addr "d_ge"; Op1 ".x" (Addr "d"); Op1 ".y" (Addr "d")];
      Call "_" "secp256k1_ge_set_gej_zinv@PPP" [Op2 "[]" (Var "pre_a") (Num 0); Var "a"; Op1 ".z" (Addr "d")];
      Call "_" "secp256k1_gej_set_ge@PP" [Addr "ai"; Op2 "[]" (Var "pre_a") (Num 0)];
      PubPrim "_" "copy" [Op1 ".z" (Addr "ai"); Op1 ".z" (Var "a")];
      PubPrim "_" "copy" [Op2 "[]" (Var "zr") (Num 0); Op1 ".z" (Addr "d")];
      Assign "i" (Num 1);
      Loop (If (Op2 "<" (Var "i") (Var "n")) (seq [Call "_" "secp256k1_gej_add_ge_var@PPPP" [Addr "ai"; Addr "ai"; Addr "d_ge"; Op2 "[]" (Var "zr") (Var "i")];
      Call "_" "secp256k1_ge_set_xy@PPP" [Op2 "[]" (Var "pre_a") (Var "i"); Op1 ".x" (Addr "ai"); Op1 ".y" (Addr "ai")];
      Assign "i" (Op2 "+" (Var "i") (Num 1))]) (Break));
      Call "_" "secp256k1_fe_impl_mul@PPP" [Var "z"; Op1 ".z" (Addr "ai"); Op1 ".z" (Addr "d")]]).
(** src/group_impl.h:116-130 secp256k1_ge_set_ge_zinv@PPP *)
Definition c64_ge_set_ge_zinv__PPP : func := mkfunc "secp256k1_ge_set_ge_zinv@PPP" [("r", false); ("a", false); ("zi", false)] false
  (seq [Call "_" "secp256k1_fe_impl_sqr@PP" [Addr "zi2"; Var "zi"];
      Call "_" "secp256k1_fe_impl_mul@PPP" [Addr "zi3"; Addr "zi2"; Var "zi"];
      Call "_" "secp256k1_fe_impl_mul@PPP" [Op1 ".x" (Var "r"); Op1 ".x" (Var "a"); Addr "zi2"];
      Call "_" "secp256k1_fe_impl_mul@PPP" [Op1 ".y" (Var "r"); Op1 ".y" (Var "a"); Addr "zi3"];
      Store Pub (Op1 ".infinity" (Var "r")) (Load Pub (Op1 ".infinity" (Var "a")))]).
(** src/group_impl.h:289-320 secp256k1_ge_table_set_globalz@PP *)
Definition c64_ge_table_set_globalz__PP : func := mkfunc "secp256k1_ge_table_set_globalz@PP" [("len", false); ("a", false); ("zr", false)] false
  (If (Op2 ">" (Var "len") (Num 0)) (seq [Assign "i" (Op2 "-" (Var "len") (Num 1));
      Call "_" "secp256k1_fe_impl_normalize_weak@P" [Op1 ".y" (Op2 "[]" (Var "a") (Var "i"))];
      PubPrim "_" "copy" [Addr "zs"; Op2 "[]" (Var "zr") (Var "i")];
      Loop (If (Op2 ">" (Var "i") (Num 0)) (seq [If (Op2 "!=" (Var "i") (Op2 "-" (Var "len") (Num 1))) (Call "_" "secp256k1_fe_impl_mul@PPP" [Addr "zs"; Addr "zs"; Op2 "[]" (Var "zr") (Var "i")]) (Skip);
      Assign "i" (Op2 "-" (Var "i") (Num 1));
      Call "_" "secp256k1_ge_set_ge_zinv@PPP" [Op2 "[]" (Var "a") (Var "i"); Op2 "[]" (Var "a") (Var "i"); Addr "zs"]]) (Break))]) (Skip)).
(** src/ecmult_const_impl.h:44-49 secp256k1_ecmult_const_odd_multiples_table_globalz@PPP *)
Definition c64_ecmult_const_odd_multiples_table_globalz__PPP : func := mkfunc "secp256k1_ecmult_const_odd_multiples_table_globalz@PPP" [("pre", false); ("globalz", false); ("a", false)] false
  (seq [Call "_" "secp256k1_ecmult_odd_multiples_table@PPPP" [Op2 "<<" (Num 1) (Op2 "-" (Num 5) (Num 1)); Var "pre"; Addr "zr"; Var "globalz"; Var "a"];
      Call "_" "secp256k1_ge_table_set_globalz@PP" [Op2 "<<" (Num 1) (Op2 "-" (Num 5) (Num 1)); Var "pre"; Addr "zr"]]).
(** src/group_impl.h:915-922 secp256k1_ge_mul_lambda@PP *)
Definition c64_ge_mul_lambda__PP : func := mkfunc "secp256k1_ge_mul_lambda@PP" [("r", false); ("a", false)] false
  (seq [PubPrim "_" "copy" [Var "r"; Var "a"];
      Call "_" "secp256k1_fe_impl_mul@PPP" [Op1 ".x" (Var "r"); Op1 ".x" (Var "r"); Op0 "secp256k1_const_beta"]]).
(** src/scalar_4x64_impl.h:49-60 secp256k1_scalar_get_bits_var *)
Definition c64_scalar_get_bits_var : func := mkfunc "secp256k1_scalar_get_bits_var" [("a", false); ("offset", false); ("count", false)] true
  (If (Op2 "==" (Op2 ">>" (Op2 "-" (Op2 "+" (Var "offset") (Var "count")) (Num 1)) (Num 6)) (Op2 ">>" (Var "offset") (Num 6))) (seq [Call "t1" "secp256k1_scalar_get_bits_limb32" [Var "a"; Var "offset"; Var "count"];
      Return (Var "t1")]) (Return (Op2 "&" (Op2 "|" (Op2 ">>" (Load Sec (Op2 "[]" (Op1 ".d" (Var "a")) (Op2 ">>" (Var "offset") (Num 6)))) (Op2 "&" (Var "offset") (Num 63))) (Op2 "<<" (Load Sec (Op2 "[]" (Op1 ".d" (Var "a")) (Op2 "+" (Op2 ">>" (Var "offset") (Num 6)) (Num 1)))) (Op2 "-" (Num 64) (Op2 "&" (Var "offset") (Num 63))))) (Op2 ">>" (Num 4294967295) (Op2 "-" (Num 32) (Var "count")))))).
(** src/field_5x52_int128_impl.h:18-152 secp256k1_fe_mul_inner@SSP *)
Definition c64_fe_mul_inner__SSP : func := mkfunc "secp256k1_fe_mul_inner@SSP" [("r", false); ("a", false); ("b", false)] false
  (seq [Assign "a0" (Load Sec (Op2 "[]" (Var "a") (Num 0)));
      Assign "a1" (Load Sec (Op2 "[]" (Var "a") (Num 1)));
      Assign "a2" (Load Sec (Op2 "[]" (Var "a") (Num 2)));
      Assign "a3" (Load Sec (Op2 "[]" (Var "a") (Num 3)));
      Assign "a4" (Load Sec (Op2 "[]" (Var "a") (Num 4)));
      Assign "M" (Num 4503599627370495);
      Assign "R" (Num 68719492368);
      Call "_" "secp256k1_u128_mul" [Addr "d"; Var "a0"; Load Pub (Op2 "[]" (Var "b") (Num 3))];
      Call "_" "secp256k1_u128_accum_mul" [Addr "d"; Var "a1"; Load Pub (Op2 "[]" (Var "b") (Num 2))];
      Call "_" "secp256k1_u128_accum_mul" [Addr "d"; Var "a2"; Load Pub (Op2 "[]" (Var "b") (Num 1))];
      Call "_" "secp256k1_u128_accum_mul" [Addr "d"; Var "a3"; Load Pub (Op2 "[]" (Var "b") (Num 0))];
      Call "_" "secp256k1_u128_mul" [Addr "c"; Var "a4"; Load Pub (Op2 "[]" (Var "b") (Num 4))];
      Call "t1" "secp256k1_u128_to_u64" [Addr "c"];
      Call "_" "secp256k1_u128_accum_mul" [Addr "d"; Var "R"; Var "t1"];
      Call "_" "secp256k1_u128_rshift" [Addr "c"; Num 64];
      Call "t2" "secp256k1_u128_to_u64" [Addr "d"];
      Assign "t3" (Op2 "&" (Var "t2") (Var "M"));
      Call "_" "secp256k1_u128_rshift" [Addr "d"; Num 52];
      Call "_" "secp256k1_u128_accum_mul" [Addr "d"; Var "a0"; Load Pub (Op2 "[]" (Var "b") (Num 4))];
      Call "_" "secp256k1_u128_accum_mul" [Addr "d"; Var "a1"; Load Pub (Op2 "[]" (Var "b") (Num 3))];
      Call "_" "secp256k1_u128_accum_mul" [Addr "d"; Var "a2"; Load Pub (Op2 "[]" (Var "b") (Num 2))];
      Call "_" "secp256k1_u128_accum_mul" [Addr "d"; Var "a3"; Load Pub (Op2 "[]" (Var "b") (Num 1))];
      Call "_" "secp256k1_u128_accum_mul" [Addr "d"; Var "a4"; Load Pub (Op2 "[]" (Var "b") (Num 0))];
      Call "t3" "secp256k1_u128_to_u64" [Addr "c"];
      Call "_" "secp256k1_u128_accum_mul" [Addr "d"; Op2 "<<" (Var "R") (Num 12); Var "t3"];
      Call "t4" "secp256k1_u128_to_u64" [Addr "d"];
      Assign "t4" (Op2 "&" (Var "t4") (Var "M"));
      Call "_" "secp256k1_u128_rshift" [Addr "d"; Num 52];
      Assign "tx" (Op2 ">>" (Var "t4") (Num 48));
      Assign "t4" (Op2 "&" (Var "t4") (Op2 ">>" (Var "M") (Num 4)));
      Call "_" "secp256k1_u128_mul" [Addr "c"; Var "a0"; Load Pub (Op2 "[]" (Var "b") (Num 0))];
      Call "_" "secp256k1_u128_accum_mul" [Addr "d"; Var "a1"; Load Pub (Op2 "[]" (Var "b") (Num 4))];
      Call "_" "secp256k1_u128_accum_mul" [Addr "d"; Var "a2"; Load Pub (Op2 "[]" (Var "b") (Num 3))];
      Call "_" "secp256k1_u128_accum_mul" [Addr "d"; Var "a3"; Load Pub (Op2 "[]" (Var "b") (Num 2))];
      Call "_" "secp256k1_u128_accum_mul" [Addr "d"; Var "a4"; Load Pub (Op2 "[]" (Var "b") (Num 1))];
      Call "t5" "secp256k1_u128_to_u64" [Addr "d"];
      Assign "u0" (Op2 "&" (Var "t5") (Var "M"));
      Call "_" "secp256k1_u128_rshift" [Addr "d"; Num 52];
      Assign "u0" (Op2 "|" (Op2 "<<" (Var "u0") (Num 4)) (Var "tx"));
      Call "_" "secp256k1_u128_accum_mul" [Addr "c"; Var "u0"; Op2 ">>" (Var "R") (Num 4)];
      Call "t6" "secp256k1_u128_to_u64" [Addr "c"];
      Store Sec (Op2 "[]" (Var "r") (Num 0)) (Op2 "&" (Var "t6") (Var "M"));
      Call "_" "secp256k1_u128_rshift" [Addr "c"; Num 52];
      Call "_" "secp256k1_u128_accum_mul" [Addr "c"; Var "a0"; Load Pub (Op2 "[]" (Var "b") (Num 1))];
      Call "_" "secp256k1_u128_accum_mul" [Addr "c"; Var "a1"; Load Pub (Op2 "[]" (Var "b") (Num 0))];
      Call "_" "secp256k1_u128_accum_mul" [Addr "d"; Var "a2"; Load Pub (Op2 "[]" (Var "b") (Num 4))];
      Call "_" "secp256k1_u128_accum_mul" [Addr "d"; Var "a3"; Load Pub (Op2 "[]" (Var "b") (Num 3))];
      Call "_" "secp256k1_u128_accum_mul" [Addr "d"; Var "a4"; Load Pub (Op2 "[]" (Var "b") (Num 2))];
      Call "t7" "secp256k1_u128_to_u64" [Addr "d"];
      Call "_" "secp256k1_u128_accum_mul" [Addr "c"; Op2 "&" (Var "t7") (Var "M"); Var "R"];
      Call "_" "secp256k1_u128_rshift" [Addr "d"; Num 52];
      Call "t8" "secp256k1_u128_to_u64" [Addr "c"];
      Store Sec (Op2 "[]" (Var "r") (Num 1)) (Op2 "&" (Var "t8") (Var "M"));
      Call "_" "secp256k1_u128_rshift" [Addr "c"; Num 52];
      Call "_" "secp256k1_u128_accum_mul" [Addr "c"; Var "a0"; Load Pub (Op2 "[]" (Var "b") (Num 2))];
      Call "_" "secp256k1_u128_accum_mul" [Addr "c"; Var "a1"; Load Pub (Op2 "[]" (Var "b") (Num 1))];
      Call "_" "secp256k1_u128_accum_mul" [Addr "c"; Var "a2"; Load Pub (Op2 "[]" (Var "b") (Num 0))];
      Call "_" "secp256k1_u128_accum_mul" [Addr "d"; Var "a3"; Load Pub (Op2 "[]" (Var "b") (Num 4))];
      Call "_" "secp256k1_u128_accum_mul" [Addr "d"; Var "a4"; Load Pub (Op2 "[]" (Var "b") (Num 3))];
      Call "t9" "secp256k1_u128_to_u64" [Addr "d"];
      Call "_" "secp256k1_u128_accum_mul" [Addr "c"; Var "R"; Var "t9"];
      Call "_" "secp256k1_u128_rshift" [Addr "d"; Num 64];
      Call "t10" "secp256k1_u128_to_u64" [Addr "c"];
      Store Sec (Op2 "[]" (Var "r") (Num 2)) (Op2 "&" (Var "t10") (Var "M"));
      Call "_" "secp256k1_u128_rshift" [Addr "c"; Num 52];
      Call "t11" "secp256k1_u128_to_u64" [Addr "d"];
      Call "_" "secp256k1_u128_accum_mul" [Addr "c"; Op2 "<<" (Var "R") (Num 12); Var "t11"];
      Call "_" "secp256k1_u128_accum_u64" [Addr "c"; Var "t3"];
      Call "t12" "secp256k1_u128_to_u64" [Addr "c"];
      Store Sec (Op2 "[]" (Var "r") (Num 3)) (Op2 "&" (Var "t12") (Var "M"));
      Call "_" "secp256k1_u128_rshift" [Addr "c"; Num 52];
      Call "t13" "secp256k1_u128_to_u64" [Addr "c"];
      Store Sec (Op2 "[]" (Var "r") (Num 4)) (Op2 "+" (Var "t13") (Var "t4"))]).
(** src/field_5x52_impl.h:341-343 secp256k1_fe_impl_mul@SSP *)
Definition c64_fe_impl_mul__SSP : func := mkfunc "secp256k1_fe_impl_mul@SSP" [("r", false); ("a", false); ("b", false)] false
  (Call "_" "secp256k1_fe_mul_inner@SSP" [Op1 ".n" (Var "r"); Op1 ".n" (Var "a"); Op1 ".n" (Var "b")]).
(** src/ecmult_const_impl.h:124-268 secp256k1_ecmult_const@SPS *)
Definition c64_ecmult_const__SPS : func := mkfunc "secp256k1_ecmult_const@SPS" [("r", false); ("a", false); ("q", false)] false
  (seq [Call "t1" "secp256k1_ge_is_infinity@P" [Var "a"];
      If (Var "t1") (seq [Call "_" "secp256k1_gej_set_infinity" [Var "r"];
      Return (Num 0)]) (Skip);
      Call "_" "secp256k1_scalar_add@SSP" [Addr "s"; Var "q"; Op0 "secp256k1_ecmult_const_K"];
      Call "_" "secp256k1_scalar_half" [Addr "s"; Addr "s"];
      Call "_" "secp256k1_scalar_split_lambda" [Addr "v1"; Addr "v2"; Addr "s"];
      Call "_" "secp256k1_scalar_add@SSP" [Addr "v1"; Addr "v1"; Op0 "secp256k1_ecmult_const.S_OFFSET"];
      Call "_" "secp256k1_scalar_add@SSP" [Addr "v2"; Addr "v2"; Op0 "secp256k1_ecmult_const.S_OFFSET"];
      Call "_" "secp256k1_gej_set_ge@PP" [Var "r"; Var "a"];
      Call "_" "secp256k1_ecmult_const_odd_multiples_table_globalz@PPP" [Addr "pre_a"; Addr "global_z"; Var "r"];
      Assign "i" (Num 0);
      Loop (If (Op2 "<" (Var "i") (Op2 "<<" (Num 1) (Op2 "-" (Num 5) (Num 1)))) (seq [Call "_" "secp256k1_ge_mul_lambda@PP" [Op2 "[]" (Addr "pre_a_lam") (Var "i"); Op2 "[]" (Addr "pre_a") (Var "i")];
      Assign "i" (Op2 "+" (Var "i") (Num 1))]) (Break));
      Assign "group" (Op2 "-" (Op2 "/" (Op2 "-" (Op2 "+" (Num 129) (Num 5)) (Num 1)) (Num 5)) (Num 1));
      Loop (If (Op2 ">=" (Var "group") (Num 0)) (seq [Call "t2" "secp256k1_scalar_get_bits_var" [Addr "v1"; Op2 "*" (Var "group") (Num 5); Num 5];
      Assign "bits1" (Var "t2");
      Call "t3" "secp256k1_scalar_get_bits_var" [Addr "v2"; Op2 "*" (Var "group") (Num 5); Num 5];
      Assign "bits2" (Var "t3");
      Assign "m" (Num 0);
      Assign "negative" (Op2 "^" (Op2 ">>" (Var "bits1") (Op2 "-" (Num 5) (Num 1))) (Num 1));
      Assign "index" (Op2 "&" (Op2 "^" (Op1 "(unsigned int)" (Op1 "-" (Var "negative"))) (Var "bits1")) (Op2 "-" (Op2 "<<" (Num 1) (Op2 "-" (Num 5) (Num 1))) (Num 1)));
      Prim "copy" [Op1 ".x" (Addr "t"); Op1 ".x" (Op2 "[]" (Addr "pre_a") (Var "m"))];
      Prim "copy" [Op1 ".y" (Addr "t"); Op1 ".y" (Op2 "[]" (Addr "pre_a") (Var "m"))];
      Assign "m" (Num 1);
      Loop (If (Op2 "<" (Var "m") (Op2 "<<" (Num 1) (Op2 "-" (Num 5) (Num 1)))) (seq [Call "_" "secp256k1_fe_impl_cmov@SP" [Op1 ".x" (Addr "t"); Op1 ".x" (Op2 "[]" (Addr "pre_a") (Var "m")); Op2 "==" (Var "m") (Var "index")];
      Call "_" "secp256k1_fe_impl_cmov@SP" [Op1 ".y" (Addr "t"); Op1 ".y" (Op2 "[]" (Addr "pre_a") (Var "m")); Op2 "==" (Var "m") (Var "index")];
      Assign "m" (Op2 "+" (Var "m") (Num 1))]) (Break));
      Store Sec (Op1 ".infinity" (Addr "t")) (Num 0);
      Call "_" "secp256k1_fe_impl_negate_unchecked" [Addr "neg_y"; Op1 ".y" (Addr "t"); Num 1];
      Call "_" "secp256k1_fe_impl_cmov" [Op1 ".y" (Addr "t"); Addr "neg_y"; Var "negative"];
      If (Op2 "==" (Var "group") (Op2 "-" (Op2 "/" (Op2 "-" (Op2 "+" (Num 129) (Num 5)) (Num 1)) (Num 5)) (Num 1))) (Call "_" "secp256k1_gej_set_ge" [Var "r"; Addr "t"]) (seq [Assign "j" (Num 0);
      Loop (If (Op2 "<" (Var "j") (Num 5)) (seq [Call "_" "secp256k1_gej_double" [Var "r"; Var "r"];
      Assign "j" (Op2 "+" (Var "j") (Num 1))]) (Break));
      Call "_" "secp256k1_gej_add_ge" [Var "r"; Var "r"; Addr "t"]]);
      Assign "m_2" (Num 0);
      Assign "negative_2" (Op2 "^" (Op2 ">>" (Var "bits2") (Op2 "-" (Num 5) (Num 1))) (Num 1));
      Assign "index_2" (Op2 "&" (Op2 "^" (Op1 "(unsigned int)" (Op1 "-" (Var "negative_2"))) (Var "bits2")) (Op2 "-" (Op2 "<<" (Num 1) (Op2 "-" (Num 5) (Num 1))) (Num 1)));
      Prim "copy" [Op1 ".x" (Addr "t"); Op1 ".x" (Op2 "[]" (Addr "pre_a_lam") (Var "m_2"))];
      Prim "copy" [Op1 ".y" (Addr "t"); Op1 ".y" (Op2 "[]" (Addr "pre_a_lam") (Var "m_2"))];
      Assign "m_2" (Num 1);
      Loop (If (Op2 "<" (Var "m_2") (Op2 "<<" (Num 1) (Op2 "-" (Num 5) (Num 1)))) (seq [Call "_" "secp256k1_fe_impl_cmov@SP" [Op1 ".x" (Addr "t"); Op1 ".x" (Op2 "[]" (Addr "pre_a_lam") (Var "m_2")); Op2 "==" (Var "m_2") (Var "index_2")];
      Call "_" "secp256k1_fe_impl_cmov@SP" [Op1 ".y" (Addr "t"); Op1 ".y" (Op2 "[]" (Addr "pre_a_lam") (Var "m_2")); Op2 "==" (Var "m_2") (Var "index_2")];
      Assign "m_2" (Op2 "+" (Var "m_2") (Num 1))]) (Break));
      Store Sec (Op1 ".infinity" (Addr "t")) (Num 0);
      Call "_" "secp256k1_fe_impl_negate_unchecked" [Addr "neg_y_2"; Op1 ".y" (Addr "t"); Num 1];
      Call "_" "secp256k1_fe_impl_cmov" [Op1 ".y" (Addr "t"); Addr "neg_y_2"; Var "negative_2"];
      Call "_" "secp256k1_gej_add_ge" [Var "r"; Var "r"; Addr "t"];
      Assign "group" (Op2 "-" (Var "group") (Num 1))]) (Break));
      Call "_" "secp256k1_fe_impl_mul@SSP" [Op1 ".z" (Var "r"); Op1 ".z" (Var "r"); Addr "global_z"]]).
(** src/hash_impl.h:174-176 secp256k1_sha256_clear *)
Definition c64_sha256_clear : func := mkfunc "secp256k1_sha256_clear" [("hash", false)] false
  (Prim "secp256k1_memclear" [Var "hash"; Op0 "sizeof ( * hash )"]).
(** src/modules/ecdh/main_impl.h:13-25 ecdh_hash_function_sha256 *)
Definition c64_ecdh_hash_function_sha256 : func := mkfunc "ecdh_hash_function_sha256" [("output", false); ("x32", false); ("y32", false); ("data", false)] false
  (seq [Store Sec (Addr "version") (Op2 "|" (Op2 "&" (Load Sec (Op2 "[]" (Var "y32") (Num 31))) (Num 1)) (Num 2));
      Call "_" "secp256k1_sha256_initialize" [Addr "sha"];
      Call "_" "secp256k1_sha256_write" [Addr "sha"; Addr "version"; Num 1];
      Call "_" "secp256k1_sha256_write" [Addr "sha"; Var "x32"; Num 32];
      Call "_" "secp256k1_sha256_finalize" [Addr "sha"; Var "output"];
      Call "_" "secp256k1_sha256_clear" [Addr "sha"];
      Return (Num 1)]).
(** src/modules/ecdh/main_impl.h:30-72 secp256k1_ecdh *)
Definition c64_ecdh : func := mkfunc "secp256k1_ecdh" [("ctx", false); ("output", false); ("point", false); ("scalar", false); ("hashfp", false); ("data", false)] true
  (seq [Assign "ret" (Num 0);
      Store Sec (Addr "overflow") (Num 0);
      If (Op1 "!" (Op2 "!=" (Var "output") (Num 0))) (seq [Prim "callback" [];
      Return (Num 0)]) (Skip);
      If (Op1 "!" (Op2 "!=" (Var "point") (Num 0))) (seq [Prim "callback" [];
      Return (Num 0)]) (Skip);
      If (Op1 "!" (Op2 "!=" (Var "scalar") (Num 0))) (seq [Prim "callback" [];
      Return (Num 0)]) (Skip);
      If (Op2 "==" (Var "hashfp") (Num 0)) (Assign "hashfp" (Op0 "secp256k1_ecdh_hash_function_default")) (Skip);
      Call "_" "secp256k1_pubkey_load@SPP" [Var "ctx"; Addr "pt"; Var "point"];
      Call "_" "secp256k1_scalar_set_b32" [Addr "s"; Var "scalar"; Addr "overflow"];
      Call "t1" "secp256k1_scalar_is_zero" [Addr "s"];
      Store Sec (Addr "overflow") (Op2 "|" (Load Sec (Addr "overflow")) (Var "t1"));
      Call "_" "secp256k1_scalar_cmov@SP" [Addr "s"; Op0 "secp256k1_scalar_one"; Load Sec (Addr "overflow")];
      Call "_" "secp256k1_ecmult_const@SPS" [Addr "res"; Addr "pt"; Addr "s"];
      Call "_" "secp256k1_ge_set_gej" [Addr "pt"; Addr "res"];
      Call "_" "secp256k1_fe_impl_normalize" [Op1 ".x" (Addr "pt")];
      Call "_" "secp256k1_fe_impl_normalize" [Op1 ".y" (Addr "pt")];
      Call "_" "secp256k1_fe_impl_get_b32" [Addr "x"; Op1 ".x" (Addr "pt")];
      Call "_" "secp256k1_fe_impl_get_b32" [Addr "y"; Op1 ".y" (Addr "pt")];
      Call "t2" "ecdh_hash_function_sha256" [Var "output"; Addr "x"; Addr "y"; Var "data"];
      Assign "ret" (Var "t2");
      Prim "secp256k1_memclear" [Addr "x"; Op0 "sizeof ( x )"];
      Prim "secp256k1_memclear" [Addr "y"; Op0 "sizeof ( y )"];
      Call "_" "secp256k1_scalar_clear" [Addr "s"];
      Call "_" "secp256k1_ge_clear" [Addr "pt"];
      Call "_" "secp256k1_gej_clear" [Addr "res"];
      Return (Op2 "&" (Op1 "!" (Op1 "!" (Var "ret"))) (Op1 "!" (Load Sec (Addr "overflow"))))]).
(** src/field_5x52_impl.h:99-135 secp256k1_fe_impl_normalize_var@P *)
Definition c64_fe_impl_normalize_var__P : func := mkfunc "secp256k1_fe_impl_normalize_var@P" [("r", false)] false
  (seq [Assign "t0" (Load Pub (Op2 "[]" (Op1 ".n" (Var "r")) (Num 0)));
      Assign "t1" (Load Pub (Op2 "[]" (Op1 ".n" (Var "r")) (Num 1)));
      Assign "t2" (Load Pub (Op2 "[]" (Op1 ".n" (Var "r")) (Num 2)));
      Assign "t3" (Load Pub (Op2 "[]" (Op1 ".n" (Var "r")) (Num 3)));
      Assign "t4" (Load Pub (Op2 "[]" (Op1 ".n" (Var "r")) (Num 4)));
      Assign "x" (Op2 ">>" (Var "t4") (Num 48));
      Assign "t4" (Op2 "&" (Var "t4") (Num 281474976710655));
      Assign "t0" (Op2 "+" (Var "t0") (Op2 "*" (Var "x") (Num 4294968273)));
      Assign "t1" (Op2 "+" (Var "t1") (Op2 ">>" (Var "t0") (Num 52)));
      Assign "t0" (Op2 "&" (Var "t0") (Num 4503599627370495));
      Assign "t2" (Op2 "+" (Var "t2") (Op2 ">>" (Var "t1") (Num 52)));
      Assign "t1" (Op2 "&" (Var "t1") (Num 4503599627370495));
      Assign "m" (Var "t1");
      Assign "t3" (Op2 "+" (Var "t3") (Op2 ">>" (Var "t2") (Num 52)));
      Assign "t2" (Op2 "&" (Var "t2") (Num 4503599627370495));
      Assign "m" (Op2 "&" (Var "m") (Var "t2"));
      Assign "t4" (Op2 "+" (Var "t4") (Op2 ">>" (Var "t3") (Num 52)));
      Assign "t3" (Op2 "&" (Var "t3") (Num 4503599627370495));
      Assign "m" (Op2 "&" (Var "m") (Var "t3"));
      Assign "x" (Op2 "|" (Op2 ">>" (Var "t4") (Num 48)) (Op2 "&" (Op2 "&" (Op2 "==" (Var "t4") (Num 281474976710655)) (Op2 "==" (Var "m") (Num 4503599627370495))) (Op2 ">=" (Var "t0") (Num 4503595332402223))));
      If (Var "x") (seq [Assign "t0" (Op2 "+" (Var "t0") (Num 4294968273));
      Assign "t1" (Op2 "+" (Var "t1") (Op2 ">>" (Var "t0") (Num 52)));
      Assign "t0" (Op2 "&" (Var "t0") (Num 4503599627370495));
      Assign "t2" (Op2 "+" (Var "t2") (Op2 ">>" (Var "t1") (Num 52)));
      Assign "t1" (Op2 "&" (Var "t1") (Num 4503599627370495));
      Assign "t3" (Op2 "+" (Var "t3") (Op2 ">>" (Var "t2") (Num 52)));
      Assign "t2" (Op2 "&" (Var "t2") (Num 4503599627370495));
      Assign "t4" (Op2 "+" (Var "t4") (Op2 ">>" (Var "t3") (Num 52)));
      Assign "t3" (Op2 "&" (Var "t3") (Num 4503599627370495));
      Assign "t4" (Op2 "&" (Var "t4") (Num 281474976710655))]) (Skip);
      Store Pub (Op2 "[]" (Op1 ".n" (Var "r")) (Num 0)) (Var "t0");
      Store Pub (Op2 "[]" (Op1 ".n" (Var "r")) (Num 1)) (Var "t1");
      Store Pub (Op2 "[]" (Op1 ".n" (Var "r")) (Num 2)) (Var "t2");
      Store Pub (Op2 "[]" (Op1 ".n" (Var "r")) (Num 3)) (Var "t3");
      Store Pub (Op2 "[]" (Op1 ".n" (Var "r")) (Num 4)) (Var "t4")]).
(** src/modules/ellswift/main_impl.h:436-448 secp256k1_ellswift_sha256_init_create *)
Definition c64_ellswift_sha256_init_create : func := mkfunc "secp256k1_ellswift_sha256_init_create" [("hash", false)] false
  (seq [Call "_" "secp256k1_sha256_initialize" [Var "hash"];
      Store Sec (Op2 "[]" (Op1 ".s" (Var "hash")) (Num 0)) (Num 3533577205);
      Store Sec (Op2 "[]" (Op1 ".s" (Var "hash")) (Num 1)) (Num 4144127810);
      Store Sec (Op2 "[]" (Op1 ".s" (Var "hash")) (Num 2)) (Num 2600617843);
      Store Sec (Op2 "[]" (Op1 ".s" (Var "hash")) (Num 3)) (Num 156022741);
      Store Sec (Op2 "[]" (Op1 ".s" (Var "hash")) (Num 4)) (Num 3852392329);
      Store Sec (Op2 "[]" (Op1 ".s" (Var "hash")) (Num 5)) (Num 62691206);
      Store Sec (Op2 "[]" (Op1 ".s" (Var "hash")) (Num 6)) (Num 1748196149);
      Store Sec (Op2 "[]" (Op1 ".s" (Var "hash")) (Num 7)) (Num 1312176979);
      Store Pub (Op1 ".bytes" (Var "hash")) (Num 64)]).
(** src/util.h:400-405 secp256k1_read_be32@P *)
Definition c64_read_be32__P : func := mkfunc "secp256k1_read_be32@P" [("p", false)] false
  (Return (Op2 "|" (Op2 "|" (Op2 "|" (Op2 "<<" (Op1 "(uint32_t)" (Load Pub (Op2 "[]" (Var "p") (Num 0)))) (Num 24)) (Op2 "<<" (Op1 "(uint32_t)" (Load Pub (Op2 "[]" (Var "p") (Num 1)))) (Num 16))) (Op2 "<<" (Op1 "(uint32_t)" (Load Pub (Op2 "[]" (Var "p") (Num 2)))) (Num 8))) (Op1 "(uint32_t)" (Load Pub (Op2 "[]" (Var "p") (Num 3)))))).
(** src/hash_impl.h:44-124 secp256k1_sha256_transform@PP *)
Definition c64_sha256_transform__PP : func := mkfunc "secp256k1_sha256_transform@PP" [("s", false); ("buf", false)] false
  (seq [Assign "a" (Load Pub (Op2 "[]" (Var "s") (Num 0)));
      Assign "b" (Load Pub (Op2 "[]" (Var "s") (Num 1)));
      Assign "c" (Load Pub (Op2 "[]" (Var "s") (Num 2)));
      Assign "d" (Load Pub (Op2 "[]" (Var "s") (Num 3)));
      Assign "e" (Load Pub (Op2 "[]" (Var "s") (Num 4)));
      Assign "f" (Load Pub (Op2 "[]" (Var "s") (Num 5)));
      Assign "g" (Load Pub (Op2 "[]" (Var "s") (Num 6)));
      Assign "h" (Load Pub (Op2 "[]" (Var "s") (Num 7)));
      Call "t1" "secp256k1_read_be32@P" [Op2 "[]" (Var "buf") (Num 0)];
      Assign "w0" (Var "t1");
      Assign "t1" (Op2 "+" (Op2 "+" (Op2 "+" (Op2 "+" (Var "h") (Op2 "^" (Op2 "^" (Op2 "|" (Op2 ">>" (Var "e") (Num 6)) (Op2 "<<" (Var "e") (Num 26))) (Op2 "|" (Op2 ">>" (Var "e") (Num 11)) (Op2 "<<" (Var "e") (Num 21)))) (Op2 "|" (Op2 ">>" (Var "e") (Num 25)) (Op2 "<<" (Var "e") (Num 7))))) (Op2 "^" (Var "g") (Op2 "&" (Var "e") (Op2 "^" (Var "f") (Var "g"))))) (Num 1116352408)) (Var "w0"));
      Assign "t2" (Op2 "+" (Op2 "^" (Op2 "^" (Op2 "|" (Op2 ">>" (Var "a") (Num 2)) (Op2 "<<" (Var "a") (Num 30))) (Op2 "|" (Op2 ">>" (Var "a") (Num 13)) (Op2 "<<" (Var "a") (Num 19)))) (Op2 "|" (Op2 ">>" (Var "a") (Num 22)) (Op2 "<<" (Var "a") (Num 10)))) (Op2 "|" (Op2 "&" (Var "a") (Var "b")) (Op2 "&" (Var "c") (Op2 "|" (Var "a") (Var "b")))));
      Assign "d" (Op2 "+" (Var "d") (Var "t1"));
      Assign "h" (Op2 "+" (Var "t1") (Var "t2"));
      Call "t2" "secp256k1_read_be32@P" [Op2 "[]" (Var "buf") (Num 4)];
      Assign "w1" (Var "t2");
      Assign "t1_2" (Op2 "+" (Op2 "+" (Op2 "+" (Op2 "+" (Var "g") (Op2 "^" (Op2 "^" (Op2 "|" (Op2 ">>" (Var "d") (Num 6)) (Op2 "<<" (Var "d") (Num 26))) (Op2 "|" (Op2 ">>" (Var "d") (Num 11)) (Op2 "<<" (Var "d") (Num 21)))) (Op2 "|" (Op2 ">>" (Var "d") (Num 25)) (Op2 "<<" (Var "d") (Num 7))))) (Op2 "^" (Var "f") (Op2 "&" (Var "d") (Op2 "^" (Var "e") (Var "f"))))) (Num 1899447441)) (Var "w1"));
      Assign "t2_2" (Op2 "+" (Op2 "^" (Op2 "^" (Op2 "|" (Op2 ">>" (Var "h") (Num 2)) (Op2 "<<" (Var "h") (Num 30))) (Op2 "|" (Op2 ">>" (Var "h") (Num 13)) (Op2 "<<" (Var "h") (Num 19)))) (Op2 "|" (Op2 ">>" (Var "h") (Num 22)) (Op2 "<<" (Var "h") (Num 10)))) (Op2 "|" (Op2 "&" (Var "h") (Var "a")) (Op2 "&" (Var "b") (Op2 "|" (Var "h") (Var "a")))));
      Assign "c" (Op2 "+" (Var "c") (Var "t1_2"));
      Assign "g" (Op2 "+" (Var "t1_2") (Var "t2_2"));
      Call "t3" "secp256k1_read_be32@P" [Op2 "[]" (Var "buf") (Num 8)];
      Assign "w2" (Var "t3");
      Assign "t1_3" (Op2 "+" (Op2 "+" (Op2 "+" (Op2 "+" (Var "f") (Op2 "^" (Op2 "^" (Op2 "|" (Op2 ">>" (Var "c") (Num 6)) (Op2 "<<" (Var "c") (Num 26))) (Op2 "|" (Op2 ">>" (Var "c") (Num 11)) (Op2 "<<" (Var "c") (Num 21)))) (Op2 "|" (Op2 ">>" (Var "c") (Num 25)) (Op2 "<<" (Var "c") (Num 7))))) (Op2 "^" (Var "e") (Op2 "&" (Var "c") (Op2 "^" (Var "d") (Var "e"))))) (Num 3049323471)) (Var "w2"));
      Assign "t2_3" (Op2 "+" (Op2 "^" (Op2 "^" (Op2 "|" (Op2 ">>" (Var "g") (Num 2)) (Op2 "<<" (Var "g") (Num 30))) (Op2 "|" (Op2 ">>" (Var "g") (Num 13)) (Op2 "<<" (Var "g") (Num 19)))) (Op2 "|" (Op2 ">>" (Var "g") (Num 22)) (Op2 "<<" (Var "g") (Num 10)))) (Op2 "|" (Op2 "&" (Var "g") (Var "h")) (Op2 "&" (Var "a") (Op2 "|" (Var "g") (Var "h")))));
      Assign "b" (Op2 "+" (Var "b") (Var "t1_3"));
      Assign "f" (Op2 "+" (Var "t1_3") (Var "t2_3"));
      Call "t4" "secp256k1_read_be32@P" [Op2 "[]" (Var "buf") (Num 12)];
      Assign "w3" (Var "t4");
      Assign "t1_4" (Op2 "+" (Op2 "+" (Op2 "+" (Op2 "+" (Var "e") (Op2 "^" (Op2 "^" (Op2 "|" (Op2 ">>" (Var "b") (Num 6)) (Op2 "<<" (Var "b") (Num 26))) (Op2 "|" (Op2 ">>" (Var "b") (Num 11)) (Op2 "<<" (Var "b") (Num 21)))) (Op2 "|" (Op2 ">>" (Var "b") (Num 25)) (Op2 "<<" (Var "b") (Num 7))))) (Op2 "^" (Var "d") (Op2 "&" (Var "b") (Op2 "^" (Var "c") (Var "d"))))) (Num 3921009573)) (Var "w3"));
      Assign "t2_4" (Op2 "+" (Op2 "^" (Op2 "^" (Op2 "|" (Op2 ">>" (Var "f") (Num 2)) (Op2 "<<" (Var "f") (Num 30))) (Op2 "|" (Op2 ">>" (Var "f") (Num 13)) (Op2 "<<" (Var "f") (Num 19)))) (Op2 "|" (Op2 ">>" (Var "f") (Num 22)) (Op2 "<<" (Var "f") (Num 10)))) (Op2 "|" (Op2 "&" (Var "f") (Var "g")) (Op2 "&" (Var "h") (Op2 "|" (Var "f") (Var "g")))));
      Assign "a" (Op2 "+" (Var "a") (Var "t1_4"));
      Assign "e" (Op2 "+" (Var "t1_4") (Var "t2_4"));
      Call "t5" "secp256k1_read_be32@P" [Op2 "[]" (Var "buf") (Num 16)];
      Assign "w4" (Var "t5");
      Assign "t1_5" (Op2 "+" (Op2 "+" (Op2 "+" (Op2 "+" (Var "d") (Op2 "^" (Op2 "^" (Op2 "|" (Op2 ">>" (Var "a") (Num 6)) (Op2 "<<" (Var "a") (Num 26))) (Op2 "|" (Op2 ">>" (Var "a") (Num 11)) (Op2 "<<" (Var "a") (Num 21)))) (Op2 "|" (Op2 ">>" (Var "a") (Num 25)) (Op2 "<<" (Var "a") (Num 7))))) (Op2 "^" (Var "c") (Op2 "&" (Var "a") (Op2 "^" (Var "b") (Var "c"))))) (Num 961987163)) (Var "w4"));
      Assign "t2_5" (Op2 "+" (Op2 "^" (Op2 "^" (Op2 "|" (Op2 ">>" (Var "e") (Num 2)) (Op2 "<<" (Var "e") (Num 30))) (Op2 "|" (Op2 ">>" (Var "e") (Num 13)) (Op2 "<<" (Var "e") (Num 19)))) (Op2 "|" (Op2 ">>" (Var "e") (Num 22)) (Op2 "<<" (Var "e") (Num 10)))) (Op2 "|" (Op2 "&" (Var "e") (Var "f")) (Op2 "&" (Var "g") (Op2 "|" (Var "e") (Var "f")))));
      Assign "h" (Op2 "+" (Var "h") (Var "t1_5"));
      Assign "d" (Op2 "+" (Var "t1_5") (Var "t2_5"));
      Call "t6" "secp256k1_read_be32@P" [Op2 "[]" (Var "buf") (Num 20)];
      Assign "w5" (Var "t6");
      Assign "t1_6" (Op2 "+" (Op2 "+" (Op2 "+" (Op2 "+" (Var "c") (Op2 "^" (Op2 "^" (Op2 "|" (Op2 ">>" (Var "h") (Num 6)) (Op2 "<<" (Var "h") (Num 26))) (Op2 "|" (Op2 ">>" (Var "h") (Num 11)) (Op2 "<<" (Var "h") (Num 21)))) (Op2 "|" (Op2 ">>" (Var "h") (Num 25)) (Op2 "<<" (Var "h") (Num 7))))) (Op2 "^" (Var "b") (Op2 "&" (Var "h") (Op2 "^" (Var "a") (Var "b"))))) (Num 1508970993)) (Var "w5"));
      Assign "t2_6" (Op2 "+" (Op2 "^" (Op2 "^" (Op2 "|" (Op2 ">>" (Var "d") (Num 2)) (Op2 "<<" (Var "d") (Num 30))) (Op2 "|" (Op2 ">>" (Var "d") (Num 13)) (Op2 "<<" (Var "d") (Num 19)))) (Op2 "|" (Op2 ">>" (Var "d") (Num 22)) (Op2 "<<" (Var "d") (Num 10)))) (Op2 "|" (Op2 "&" (Var "d") (Var "e")) (Op2 "&" (Var "f") (Op2 "|" (Var "d") (Var "e")))));
      Assign "g" (Op2 "+" (Var "g") (Var "t1_6"));
      Assign "c" (Op2 "+" (Var "t1_6") (Var "t2_6"));
      Call "t7" "secp256k1_read_be32@P" [Op2 "[]" (Var "buf") (Num 24)];
      Assign "w6" (Var "t7");
      Assign "t1_7" (Op2 "+" (Op2 "+" (Op2 "+" (Op2 "+" (Var "b") (Op2 "^" (Op2 "^" (Op2 "|" (Op2 ">>" (Var "g") (Num 6)) (Op2 "<<" (Var "g") (Num 26))) (Op2 "|" (Op2 ">>" (Var "g") (Num 11)) (Op2 "<<" (Var "g") (Num 21)))) (Op2 "|" (Op2 ">>" (Var "g") (Num 25)) (Op2 "<<" (Var "g") (Num 7))))) (Op2 "^" (Var "a") (Op2 "&" (Var "g") (Op2 "^" (Var "h") (Var "a"))))) (Num 2453635748)) (Var "w6"));
      Assign "t2_7" (Op2 "+" (Op2 "^" (Op2 "^" (Op2 "|" (Op2 ">>" (Var "c") (Num 2)) (Op2 "<<" (Var "c") (Num 30))) (Op2 "|" (Op2 ">>" (Var "c") (Num 13)) (Op2 "<<" (Var "c") (Num 19)))) (Op2 "|" (Op2 ">>" (Var "c") (Num 22)) (Op2 "<<" (Var "c") (Num 10)))) (Op2 "|" (Op2 "&" (Var "c") (Var "d")) (Op2 "&" (Var "e") (Op2 "|" (Var "c") (Var "d")))));
      Assign "f" (Op2 "+" (Var "f") (Var "t1_7"));
      Assign "b" (Op2 "+" (Var "t1_7") (Var "t2_7"));
      Call "t8" "secp256k1_read_be32@P" [Op2 "[]" (Var "buf") (Num 28)];
      Assign "w7" (Var "t8");
      Assign "t1_8" (Op2 "+" (Op2 "+" (Op2 "+" (Op2 "+" (Var "a") (Op2 "^" (Op2 "^" (Op2 "|" (Op2 ">>" (Var "f") (Num 6)) (Op2 "<<" (Var "f") (Num 26))) (Op2 "|" (Op2 ">>" (Var "f") (Num 11)) (Op2 "<<" (Var "f") (Num 21)))) (Op2 "|" (Op2 ">>" (Var "f") (Num 25)) (Op2 "<<" (Var "f") (Num 7))))) (Op2 "^" (Var "h") (Op2 "&" (Var "f") (Op2 "^" (Var "g") (Var "h"))))) (Num 2870763221)) (Var "w7"));
      Assign "t2_8" (Op2 "+" (Op2 "^" (Op2 "^" (Op2 "|" (Op2 ">>" (Var "b") (Num 2)) (Op2 "<<" (Var "b") (Num 30))) (Op2 "|" (Op2 ">>" (Var "b") (Num 13)) (Op2 "<<" (Var "b") (Num 19)))) (Op2 "|" (Op2 ">>" (Var "b") (Num 22)) (Op2 "<<" (Var "b") (Num 10)))) (Op2 "|" (Op2 "&" (Var "b") (Var "c")) (Op2 "&" (Var "d") (Op2 "|" (Var "b") (Var "c")))));
      Assign "e" (Op2 "+" (Var "e") (Var "t1_8"));
      Assign "a" (Op2 "+" (Var "t1_8") (Var "t2_8"));
      Call "t9" "secp256k1_read_be32@P" [Op2 "[]" (Var "buf") (Num 32)];
      Assign "w8" (Var "t9");
      Assign "t1_9" (Op2 "+" (Op2 "+" (Op2 "+" (Op2 "+" (Var "h") (Op2 "^" (Op2 "^" (Op2 "|" (Op2 ">>" (Var "e") (Num 6)) (Op2 "<<" (Var "e") (Num 26))) (Op2 "|" (Op2 ">>" (Var "e") (Num 11)) (Op2 "<<" (Var "e") (Num 21)))) (Op2 "|" (Op2 ">>" (Var "e") (Num 25)) (Op2 "<<" (Var "e") (Num 7))))) (Op2 "^" (Var "g") (Op2 "&" (Var "e") (Op2 "^" (Var "f") (Var "g"))))) (Num 3624381080)) (Var "w8"));
      Assign "t2_9" (Op2 "+" (Op2 "^" (Op2 "^" (Op2 "|" (Op2 ">>" (Var "a") (Num 2)) (Op2 "<<" (Var "a") (Num 30))) (Op2 "|" (Op2 ">>" (Var "a") (Num 13)) (Op2 "<<" (Var "a") (Num 19)))) (Op2 "|" (Op2 ">>" (Var "a") (Num 22)) (Op2 "<<" (Var "a") (Num 10)))) (Op2 "|" (Op2 "&" (Var "a") (Var "b")) (Op2 "&" (Var "c") (Op2 "|" (Var "a") (Var "b")))));
      Assign "d" (Op2 "+" (Var "d") (Var "t1_9"));
      Assign "h" (Op2 "+" (Var "t1_9") (Var "t2_9"));
      Call "t10" "secp256k1_read_be32@P" [Op2 "[]" (Var "buf") (Num 36)];
      Assign "w9" (Var "t10");
      Assign "t1_10" (Op2 "+" (Op2 "+" (Op2 "+" (Op2 "+" (Var "g") (Op2 "^" (Op2 "^" (Op2 "|" (Op2 ">>" (Var "d") (Num 6)) (Op2 "<<" (Var "d") (Num 26))) (Op2 "|" (Op2 ">>" (Var "d") (Num 11)) (Op2 "<<" (Var "d") (Num 21)))) (Op2 "|" (Op2 ">>" (Var "d") (Num 25)) (Op2 "<<" (Var "d") (Num 7))))) (Op2 "^" (Var "f") (Op2 "&" (Var "d") (Op2 "^" (Var "e") (Var "f"))))) (Num 310598401)) (Var "w9"));
      Assign "t2_10" (Op2 "+" (Op2 "^" (Op2 "^" (Op2 "|" (Op2 ">>" (Var "h") (Num 2)) (Op2 "<<" (Var "h") (Num 30))) (Op2 "|" (Op2 ">>" (Var "h") (Num 13)) (Op2 "<<" (Var "h") (Num 19)))) (Op2 "|" (Op2 ">>" (Var "h") (Num 22)) (Op2 "<<" (Var "h") (Num 10)))) (Op2 "|" (Op2 "&" (Var "h") (Var "a")) (Op2 "&" (Var "b") (Op2 "|" (Var "h") (Var "a")))));
      Assign "c" (Op2 "+" (Var "c") (Var "t1_10"));
      Assign "g" (Op2 "+" (Var "t1_10") (Var "t2_10"));
      Call "t11" "secp256k1_read_be32@P" [Op2 "[]" (Var "buf") (Num 40)];
      Assign "w10" (Var "t11");
      Assign "t1_11" (Op2 "+" (Op2 "+" (Op2 "+" (Op2 "+" (Var "f") (Op2 "^" (Op2 "^" (Op2 "|" (Op2 ">>" (Var "c") (Num 6)) (Op2 "<<" (Var "c") (Num 26))) (Op2 "|" (Op2 ">>" (Var "c") (Num 11)) (Op2 "<<" (Var "c") (Num 21)))) (Op2 "|" (Op2 ">>" (Var "c") (Num 25)) (Op2 "<<" (Var "c") (Num 7))))) (Op2 "^" (Var "e") (Op2 "&" (Var "c") (Op2 "^" (Var "d") (Var "e"))))) (Num 607225278)) (Var "w10"));
      Assign "t2_11" (Op2 "+" (Op2 "^" (Op2 "^" (Op2 "|" (Op2 ">>" (Var "g") (Num 2)) (Op2 "<<" (Var "g") (Num 30))) (Op2 "|" (Op2 ">>" (Var "g") (Num 13)) (Op2 "<<" (Var "g") (Num 19)))) (Op2 "|" (Op2 ">>" (Var "g") (Num 22)) (Op2 "<<" (Var "g") (Num 10)))) (Op2 "|" (Op2 "&" (Var "g") (Var "h")) (Op2 "&" (Var "a") (Op2 "|" (Var "g") (Var "h")))));
      Assign "b" (Op2 "+" (Var "b") (Var "t1_11"));
      Assign "f" (Op2 "+" (Var "t1_11") (Var "t2_11"));
      Call "t12" "secp256k1_read_be32@P" [Op2 "[]" (Var "buf") (Num 44)];
      Assign "w11" (Var "t12");
      Assign "t1_12" (Op2 "+" (Op2 "+" (Op2 "+" (Op2 "+" (Var "e") (Op2 "^" (Op2 "^" (Op2 "|" (Op2 ">>" (Var "b") (Num 6)) (Op2 "<<" (Var "b") (Num 26))) (Op2 "|" (Op2 ">>" (Var "b") (Num 11)) (Op2 "<<" (Var "b") (Num 21)))) (Op2 "|" (Op2 ">>" (Var "b") (Num 25)) (Op2 "<<" (Var "b") (Num 7))))) (Op2 "^" (Var "d") (Op2 "&" (Var "b") (Op2 "^" (Var "c") (Var "d"))))) (Num 1426881987)) (Var "w11"));
      Assign "t2_12" (Op2 "+" (Op2 "^" (Op2 "^" (Op2 "|" (Op2 ">>" (Var "f") (Num 2)) (Op2 "<<" (Var "f") (Num 30))) (Op2 "|" (Op2 ">>" (Var "f") (Num 13)) (Op2 "<<" (Var "f") (Num 19)))) (Op2 "|" (Op2 ">>" (Var "f") (Num 22)) (Op2 "<<" (Var "f") (Num 10)))) (Op2 "|" (Op2 "&" (Var "f") (Var "g")) (Op2 "&" (Var "h") (Op2 "|" (Var "f") (Var "g")))));
      Assign "a" (Op2 "+" (Var "a") (Var "t1_12"));
      Assign "e" (Op2 "+" (Var "t1_12") (Var "t2_12"));
      Call "t13" "secp256k1_read_be32@P" [Op2 "[]" (Var "buf") (Num 48)];
      Assign "w12" (Var "t13");
      Assign "t1_13" (Op2 "+" (Op2 "+" (Op2 "+" (Op2 "+" (Var "d") (Op2 "^" (Op2 "^" (Op2 "|" (Op2 ">>" (Var "a") (Num 6)) (Op2 "<<" (Var "a") (Num 26))) (Op2 "|" (Op2 ">>" (Var "a") (Num 11)) (Op2 "<<" (Var "a") (Num 21)))) (Op2 "|" (Op2 ">>" (Var "a") (Num 25)) (Op2 "<<" (Var "a") (Num 7))))) (Op2 "^" (Var "c") (Op2 "&" (Var "a") (Op2 "^" (Var "b") (Var "c"))))) (Num 1925078388)) (Var "w12"));
      Assign "t2_13" (Op2 "+" (Op2 "^" (Op2 "^" (Op2 "|" (Op2 ">>" (Var "e") (Num 2)) (Op2 "<<" (Var "e") (Num 30))) (Op2 "|" (Op2 ">>" (Var "e") (Num 13)) (Op2 "<<" (Var "e") (Num 19)))) (Op2 "|" (Op2 ">>" (Var "e") (Num 22)) (Op2 "<<" (Var "e") (Num 10)))) (Op2 "|" (Op2 "&" (Var "e") (Var "f")) (Op2 "&" (Var "g") (Op2 "|" (Var "e") (Var "f")))));
      Assign "h" (Op2 "+" (Var "h") (Var "t1_13"));
      Assign "d" (Op2 "+" (Var "t1_13") (Var "t2_13"));
      Call "t14" "secp256k1_read_be32@P" [Op2 "[]" (Var "buf") (Num 52)];
      Assign "w13" (Var "t14");
      Assign "t1_14" (Op2 "+" (Op2 "+" (Op2 "+" (Op2 "+" (Var "c") (Op2 "^" (Op2 "^" (Op2 "|" (Op2 ">>" (Var "h") (Num 6)) (Op2 "<<" (Var "h") (Num 26))) (Op2 "|" (Op2 ">>" (Var "h") (Num 11)) (Op2 "<<" (Var "h") (Num 21)))) (Op2 "|" (Op2 ">>" (Var "h") (Num 25)) (Op2 "<<" (Var "h") (Num 7))))) (Op2 "^" (Var "b") (Op2 "&" (Var "h") (Op2 "^" (Var "a") (Var "b"))))) (Num 2162078206)) (Var "w13"));
      Assign "t2_14" (Op2 "+" (Op2 "^" (Op2 "^" (Op2 "|" (Op2 ">>" (Var "d") (Num 2)) (Op2 "<<" (Var "d") (Num 30))) (Op2 "|" (Op2 ">>" (Var "d") (Num 13)) (Op2 "<<" (Var "d") (Num 19)))) (Op2 "|" (Op2 ">>" (Var "d") (Num 22)) (Op2 "<<" (Var "d") (Num 10)))) (Op2 "|" (Op2 "&" (Var "d") (Var "e")) (Op2 "&" (Var "f") (Op2 "|" (Var "d") (Var "e")))));
      Assign "g" (Op2 "+" (Var "g") (Var "t1_14"));
      Assign "c" (Op2 "+" (Var "t1_14") (Var "t2_14"));
      Call "t15" "secp256k1_read_be32@P" [Op2 "[]" (Var "buf") (Num 56)];
      Assign "w14" (Var "t15");
      Assign "t1_15" (Op2 "+" (Op2 "+" (Op2 "+" (Op2 "+" (Var "b") (Op2 "^" (Op2 "^" (Op2 "|" (Op2 ">>" (Var "g") (Num 6)) (Op2 "<<" (Var "g") (Num 26))) (Op2 "|" (Op2 ">>" (Var "g") (Num 11)) (Op2 "<<" (Var "g") (Num 21)))) (Op2 "|" (Op2 ">>" (Var "g") (Num 25)) (Op2 "<<" (Var "g") (Num 7))))) (Op2 "^" (Var "a") (Op2 "&" (Var "g") (Op2 "^" (Var "h") (Var "a"))))) (Num 2614888103)) (Var "w14"));
      Assign "t2_15" (Op2 "+" (Op2 "^" (Op2 "^" (Op2 "|" (Op2 ">>" (Var "c") (Num 2)) (Op2 "<<" (Var "c") (Num 30))) (Op2 "|" (Op2 ">>" (Var "c") (Num 13)) (Op2 "<<" (Var "c") (Num 19)))) (Op2 "|" (Op2 ">>" (Var "c") (Num 22)) (Op2 "<<" (Var "c") (Num 10)))) (Op2 "|" (Op2 "&" (Var "c") (Var "d")) (Op2 "&" (Var "e") (Op2 "|" (Var "c") (Var "d")))));
      Assign "f" (Op2 "+" (Var "f") (Var "t1_15"));
      Assign "b" (Op2 "+" (Var "t1_15") (Var "t2_15"));
      Call "t16" "secp256k1_read_be32@P" [Op2 "[]" (Var "buf") (Num 60)];
      Assign "w15" (Var "t16");
      Assign "t1_16" (Op2 "+" (Op2 "+" (Op2 "+" (Op2 "+" (Var "a") (Op2 "^" (Op2 "^" (Op2 "|" (Op2 ">>" (Var "f") (Num 6)) (Op2 "<<" (Var "f") (Num 26))) (Op2 "|" (Op2 ">>" (Var "f") (Num 11)) (Op2 "<<" (Var "f") (Num 21)))) (Op2 "|" (Op2 ">>" (Var "f") (Num 25)) (Op2 "<<" (Var "f") (Num 7))))) (Op2 "^" (Var "h") (Op2 "&" (Var "f") (Op2 "^" (Var "g") (Var "h"))))) (Num 3248222580)) (Var "w15"));
      Assign "t2_16" (Op2 "+" (Op2 "^" (Op2 "^" (Op2 "|" (Op2 ">>" (Var "b") (Num 2)) (Op2 "<<" (Var "b") (Num 30))) (Op2 "|" (Op2 ">>" (Var "b") (Num 13)) (Op2 "<<" (Var "b") (Num 19)))) (Op2 "|" (Op2 ">>" (Var "b") (Num 22)) (Op2 "<<" (Var "b") (Num 10)))) (Op2 "|" (Op2 "&" (Var "b") (Var "c")) (Op2 "&" (Var "d") (Op2 "|" (Var "b") (Var "c")))));
      Assign "e" (Op2 "+" (Var "e") (Var "t1_16"));
      Assign "a" (Op2 "+" (Var "t1_16") (Var "t2_16"));
      Assign "w0" (Op2 "+" (Var "w0") (Op2 "+" (Op2 "+" (Op2 "^" (Op2 "^" (Op2 "|" (Op2 ">>" (Var "w14") (Num 17)) (Op2 "<<" (Var "w14") (Num 15))) (Op2 "|" (Op2 ">>" (Var "w14") (Num 19)) (Op2 "<<" (Var "w14") (Num 13)))) (Op2 ">>" (Var "w14") (Num 10))) (Var "w9")) (Op2 "^" (Op2 "^" (Op2 "|" (Op2 ">>" (Var "w1") (Num 7)) (Op2 "<<" (Var "w1") (Num 25))) (Op2 "|" (Op2 ">>" (Var "w1") (Num 18)) (Op2 "<<" (Var "w1") (Num 14)))) (Op2 ">>" (Var "w1") (Num 3)))));
      Assign "t1_17" (Op2 "+" (Op2 "+" (Op2 "+" (Op2 "+" (Var "h") (Op2 "^" (Op2 "^" (Op2 "|" (Op2 ">>" (Var "e") (Num 6)) (Op2 "<<" (Var "e") (Num 26))) (Op2 "|" (Op2 ">>" (Var "e") (Num 11)) (Op2 "<<" (Var "e") (Num 21)))) (Op2 "|" (Op2 ">>" (Var "e") (Num 25)) (Op2 "<<" (Var "e") (Num 7))))) (Op2 "^" (Var "g") (Op2 "&" (Var "e") (Op2 "^" (Var "f") (Var "g"))))) (Num 3835390401)) (Var "w0"));
      Assign "t2_17" (Op2 "+" (Op2 "^" (Op2 "^" (Op2 "|" (Op2 ">>" (Var "a") (Num 2)) (Op2 "<<" (Var "a") (Num 30))) (Op2 "|" (Op2 ">>" (Var "a") (Num 13)) (Op2 "<<" (Var "a") (Num 19)))) (Op2 "|" (Op2 ">>" (Var "a") (Num 22)) (Op2 "<<" (Var "a") (Num 10)))) (Op2 "|" (Op2 "&" (Var "a") (Var "b")) (Op2 "&" (Var "c") (Op2 "|" (Var "a") (Var "b")))));
      Assign "d" (Op2 "+" (Var "d") (Var "t1_17"));
      Assign "h" (Op2 "+" (Var "t1_17") (Var "t2_17"));
      Assign "w1" (Op2 "+" (Var "w1") (Op2 "+" (Op2 "+" (Op2 "^" (Op2 "^" (Op2 "|" (Op2 ">>" (Var "w15") (Num 17)) (Op2 "<<" (Var "w15") (Num 15))) (Op2 "|" (Op2 ">>" (Var "w15") (Num 19)) (Op2 "<<" (Var "w15") (Num 13)))) (Op2 ">>" (Var "w15") (Num 10))) (Var "w10")) (Op2 "^" (Op2 "^" (Op2 "|" (Op2 ">>" (Var "w2") (Num 7)) (Op2 "<<" (Var "w2") (Num 25))) (Op2 "|" (Op2 ">>" (Var "w2") (Num 18)) (Op2 "<<" (Var "w2") (Num 14)))) (Op2 ">>" (Var "w2") (Num 3)))));
      Assign "t1_18" (Op2 "+" (Op2 "+" (Op2 "+" (Op2 "+" (Var "g") (Op2 "^" (Op2 "^" (Op2 "|" (Op2 ">>" (Var "d") (Num 6)) (Op2 "<<" (Var "d") (Num 26))) (Op2 "|" (Op2 ">>" (Var "d") (Num 11)) (Op2 "<<" (Var "d") (Num 21)))) (Op2 "|" (Op2 ">>" (Var "d") (Num 25)) (Op2 "<<" (Var "d") (Num 7))))) (Op2 "^" (Var "f") (Op2 "&" (Var "d") (Op2 "^" (Var "e") (Var "f"))))) (Num 4022224774)) (Var "w1"));
      Assign "t2_18" (Op2 "+" (Op2 "^" (Op2 "^" (Op2 "|" (Op2 ">>" (Var "h") (Num 2)) (Op2 "<<" (Var "h") (Num 30))) (Op2 "|" (Op2 ">>" (Var "h") (Num 13)) (Op2 "<<" (Var "h") (Num 19)))) (Op2 "|" (Op2 ">>" (Var "h") (Num 22)) (Op2 "<<" (Var "h") (Num 10)))) (Op2 "|" (Op2 "&" (Var "h") (Var "a")) (Op2 "&" (Var "b") (Op2 "|" (Var "h") (Var "a")))));
      Assign "c" (Op2 "+" (Var "c") (Var "t1_18"));
      Assign "g" (Op2 "+" (Var "t1_18") (Var "t2_18"));
      Assign "w2" (Op2 "+" (Var "w2") (Op2 "+" (Op2 "+" (Op2 "^" (Op2 "^" (Op2 "|" (Op2 ">>" (Var "w0") (Num 17)) (Op2 "<<" (Var "w0") (Num 15))) (Op2 "|" (Op2 ">>" (Var "w0") (Num 19)) (Op2 "<<" (Var "w0") (Num 13)))) (Op2 ">>" (Var "w0") (Num 10))) (Var "w11")) (Op2 "^" (Op2 "^" (Op2 "|" (Op2 ">>" (Var "w3") (Num 7)) (Op2 "<<" (Var "w3") (Num 25))) (Op2 "|" (Op2 ">>" (Var "w3") (Num 18)) (Op2 "<<" (Var "w3") (Num 14)))) (Op2 ">>" (Var "w3") (Num 3)))));
      Assign "t1_19" (Op2 "+" (Op2 "+" (Op2 "+" (Op2 "+" (Var "f") (Op2 "^" (Op2 "^" (Op2 "|" (Op2 ">>" (Var "c") (Num 6)) (Op2 "<<" (Var "c") (Num 26))) (Op2 "|" (Op2 ">>" (Var "c") (Num 11)) (Op2 "<<" (Var "c") (Num 21)))) (Op2 "|" (Op2 ">>" (Var "c") (Num 25)) (Op2 "<<" (Var "c") (Num 7))))) (Op2 "^" (Var "e") (Op2 "&" (Var "c") (Op2 "^" (Var "d") (Var "e"))))) (Num 264347078)) (Var "w2"));
      Assign "t2_19" (Op2 "+" (Op2 "^" (Op2 "^" (Op2 "|" (Op2 ">>" (Var "g") (Num 2)) (Op2 "<<" (Var "g") (Num 30))) (Op2 "|" (Op2 ">>" (Var "g") (Num 13)) (Op2 "<<" (Var "g") (Num 19)))) (Op2 "|" (Op2 ">>" (Var "g") (Num 22)) (Op2 "<<" (Var "g") (Num 10)))) (Op2 "|" (Op2 "&" (Var "g") (Var "h")) (Op2 "&" (Var "a") (Op2 "|" (Var "g") (Var "h")))));
      Assign "b" (Op2 "+" (Var "b") (Var "t1_19"));
      Assign "f" (Op2 "+" (Var "t1_19") (Var "t2_19"));
      Assign "w3" (Op2 "+" (Var "w3") (Op2 "+" (Op2 "+" (Op2 "^" (Op2 "^" (Op2 "|" (Op2 ">>" (Var "w1") (Num 17)) (Op2 "<<" (Var "w1") (Num 15))) (Op2 "|" (Op2 ">>" (Var "w1") (Num 19)) (Op2 "<<" (Var "w1") (Num 13)))) (Op2 ">>" (Var "w1") (Num 10))) (Var "w12")) (Op2 "^" (Op2 "^" (Op2 "|" (Op2 ">>" (Var "w4") (Num 7)) (Op2 "<<" (Var "w4") (Num 25))) (Op2 "|" (Op2 ">>" (Var "w4") (Num 18)) (Op2 "<<" (Var "w4") (Num 14)))) (Op2 ">>" (Var "w4") (Num 3)))));
      Assign "t1_20" (Op2 "+" (Op2 "+" (Op2 "+" (Op2 "+" (Var "e") (Op2 "^" (Op2 "^" (Op2 "|" (Op2 ">>" (Var "b") (Num 6)) (Op2 "<<" (Var "b") (Num 26))) (Op2 "|" (Op2 ">>" (Var "b") (Num 11)) (Op2 "<<" (Var "b") (Num 21)))) (Op2 "|" (Op2 ">>" (Var "b") (Num 25)) (Op2 "<<" (Var "b") (Num 7))))) (Op2 "^" (Var "d") (Op2 "&" (Var "b") (Op2 "^" (Var "c") (Var "d"))))) (Num 604807628)) (Var "w3"));
      Assign "t2_20" (Op2 "+" (Op2 "^" (Op2 "^" (Op2 "|" (Op2 ">>" (Var "f") (Num 2)) (Op2 "<<" (Var "f") (Num 30))) (Op2 "|" (Op2 ">>" (Var "f") (Num 13)) (Op2 "<<" (Var "f") (Num 19)))) (Op2 "|" (Op2 ">>" (Var "f") (Num 22)) (Op2 "<<" (Var "f") (Num 10)))) (Op2 "|" (Op2 "&" (Var "f") (Var "g")) (Op2 "&" (Var "h") (Op2 "|" (Var "f") (Var "g")))));
      Assign "a" (Op2 "+" (Var "a") (Var "t1_20"));
      Assign "e" (Op2 "+" (Var "t1_20") (Var "t2_20"));
      Assign "w4" (Op2 "+" (Var "w4") (Op2 "+" (Op2 "+" (Op2 "^" (Op2 "^" (Op2 "|" (Op2 ">>" (Var "w2") (Num 17)) (Op2 "<<" (Var "w2") (Num 15))) (Op2 "|" (Op2 ">>" (Var "w2") (Num 19)) (Op2 "<<" (Var "w2") (Num 13)))) (Op2 ">>" (Var "w2") (Num 10))) (Var "w13")) (Op2 "^" (Op2 "^" (Op2 "|" (Op2 ">>" (Var "w5") (Num 7)) (Op2 "<<" (Var "w5") (Num 25))) (Op2 "|" (Op2 ">>" (Var "w5") (Num 18)) (Op2 "<<" (Var "w5") (Num 14)))) (Op2 ">>" (Var "w5") (Num 3)))));
      Assign "t1_21" (Op2 "+" (Op2 "+" (Op2 "+" (Op2 "+" (Var "d") (Op2 "^" (Op2 "^" (Op2 "|" (Op2 ">>" (Var "a") (Num 6)) (Op2 "<<" (Var "a") (Num 26))) (Op2 "|" (Op2 ">>" (Var "a") (Num 11)) (Op2 "<<" (Var "a") (Num 21)))) (Op2 "|" (Op2 ">>" (Var "a") (Num 25)) (Op2 "<<" (Var "a") (Num 7))))) (Op2 "^" (Var "c") (Op2 "&" (Var "a") (Op2 "^" (Var "b") (Var "c"))))) (Num 770255983)) (Var "w4"));
      Assign "t2_21" (Op2 "+" (Op2 "^" (Op2 "^" (Op2 "|" (Op2 ">>" (Var "e") (Num 2)) (Op2 "<<" (Var "e") (Num 30))) (Op2 "|" (Op2 ">>" (Var "e") (Num 13)) (Op2 "<<" (Var "e") (Num 19)))) (Op2 "|" (Op2 ">>" (Var "e") (Num 22)) (Op2 "<<" (Var "e") (Num 10)))) (Op2 "|" (Op2 "&" (Var "e") (Var "f")) (Op2 "&" (Var "g") (Op2 "|" (Var "e") (Var "f")))));
      Assign "h" (Op2 "+" (Var "h") (Var "t1_21"));
      Assign "d" (Op2 "+" (Var "t1_21") (Var "t2_21"));
      Assign "w5" (Op2 "+" (Var "w5") (Op2 "+" (Op2 "+" (Op2 "^" (Op2 "^" (Op2 "|" (Op2 ">>" (Var "w3") (Num 17)) (Op2 "<<" (Var "w3") (Num 15))) (Op2 "|" (Op2 ">>" (Var "w3") (Num 19)) (Op2 "<<" (Var "w3") (Num 13)))) (Op2 ">>" (Var "w3") (Num 10))) (Var "w14")) (Op2 "^" (Op2 "^" (Op2 "|" (Op2 ">>" (Var "w6") (Num 7)) (Op2 "<<" (Var "w6") (Num 25))) (Op2 "|" (Op2 ">>" (Var "w6") (Num 18)) (Op2 "<<" (Var "w6") (Num 14)))) (Op2 ">>" (Var "w6") (Num 3)))));
      Assign "t1_22" (Op2 "+" (Op2 "+" (Op2 "+" (Op2 "+" (Var "c") (Op2 "^" (Op2 "^" (Op2 "|" (Op2 ">>" (Var "h") (Num 6)) (Op2 "<<" (Var "h") (Num 26))) (Op2 "|" (Op2 ">>" (Var "h") (Num 11)) (Op2 "<<" (Var "h") (Num 21)))) (Op2 "|" (Op2 ">>" (Var "h") (Num 25)) (Op2 "<<" (Var "h") (Num 7))))) (Op2 "^" (Var "b") (Op2 "&" (Var "h") (Op2 "^" (Var "a") (Var "b"))))) (Num 1249150122)) (Var "w5"));
      Assign "t2_22" (Op2 "+" (Op2 "^" (Op2 "^" (Op2 "|" (Op2 ">>" (Var "d") (Num 2)) (Op2 "<<" (Var "d") (Num 30))) (Op2 "|" (Op2 ">>" (Var "d") (Num 13)) (Op2 "<<" (Var "d") (Num 19)))) (Op2 "|" (Op2 ">>" (Var "d") (Num 22)) (Op2 "<<" (Var "d") (Num 10)))) (Op2 "|" (Op2 "&" (Var "d") (Var "e")) (Op2 "&" (Var "f") (Op2 "|" (Var "d") (Var "e")))));
      Assign "g" (Op2 "+" (Var "g") (Var "t1_22"));
      Assign "c" (Op2 "+" (Var "t1_22") (Var "t2_22"));
      Assign "w6" (Op2 "+" (Var "w6") (Op2 "+" (Op2 "+" (Op2 "^" (Op2 "^" (Op2 "|" (Op2 ">>" (Var "w4") (Num 17)) (Op2 "<<" (Var "w4") (Num 15))) (Op2 "|" (Op2 ">>" (Var "w4") (Num 19)) (Op2 "<<" (Var "w4") (Num 13)))) (Op2 ">>" (Var "w4") (Num 10))) (Var "w15")) (Op2 "^" (Op2 "^" (Op2 "|" (Op2 ">>" (Var "w7") (Num 7)) (Op2 "<<" (Var "w7") (Num 25))) (Op2 "|" (Op2 ">>" (Var "w7") (Num 18)) (Op2 "<<" (Var "w7") (Num 14)))) (Op2 ">>" (Var "w7") (Num 3)))));
      Assign "t1_23" (Op2 "+" (Op2 "+" (Op2 "+" (Op2 "+" (Var "b") (Op2 "^" (Op2 "^" (Op2 "|" (Op2 ">>" (Var "g") (Num 6)) (Op2 "<<" (Var "g") (Num 26))) (Op2 "|" (Op2 ">>" (Var "g") (Num 11)) (Op2 "<<" (Var "g") (Num 21)))) (Op2 "|" (Op2 ">>" (Var "g") (Num 25)) (Op2 "<<" (Var "g") (Num 7))))) (Op2 "^" (Var "a") (Op2 "&" (Var "g") (Op2 "^" (Var "h") (Var "a"))))) (Num 1555081692)) (Var "w6"));
      Assign "t2_23" (Op2 "+" (Op2 "^" (Op2 "^" (Op2 "|" (Op2 ">>" (Var "c") (Num 2)) (Op2 "<<" (Var "c") (Num 30))) (Op2 "|" (Op2 ">>" (Var "c") (Num 13)) (Op2 "<<" (Var "c") (Num 19)))) (Op2 "|" (Op2 ">>" (Var "c") (Num 22)) (Op2 "<<" (Var "c") (Num 10)))) (Op2 "|" (Op2 "&" (Var "c") (Var "d")) (Op2 "&" (Var "e") (Op2 "|" (Var "c") (Var "d")))));
      Assign "f" (Op2 "+" (Var "f") (Var "t1_23"));
      Assign "b" (Op2 "+" (Var "t1_23") (Var "t2_23"));
      Assign "w7" (Op2 "+" (Var "w7") (Op2 "+" (Op2 "+" (Op2 "^" (Op2 "^" (Op2 "|" (Op2 ">>" (Var "w5") (Num 17)) (Op2 "<<" (Var "w5") (Num 15))) (Op2 "|" (Op2 ">>" (Var "w5") (Num 19)) (Op2 "<<" (Var "w5") (Num 13)))) (Op2 ">>" (Var "w5") (Num 10))) (Var "w0")) (Op2 "^" (Op2 "^" (Op2 "|" (Op2 ">>" (Var "w8") (Num 7)) (Op2 "<<" (Var "w8") (Num 25))) (Op2 "|" (Op2 ">>" (Var "w8") (Num 18)) (Op2 "<<" (Var "w8") (Num 14)))) (Op2 ">>" (Var "w8") (Num 3)))));
      Assign "t1_24" (Op2 "+" (Op2 "+" (Op2 "+" (Op2 "+" (Var "a") (Op2 "^" (Op2 "^" (Op2 "|" (Op2 ">>" (Var "f") (Num 6)) (Op2 "<<" (Var "f") (Num 26))) (Op2 "|" (Op2 ">>" (Var "f") (Num 11)) (Op2 "<<" (Var "f") (Num 21)))) (Op2 "|" (Op2 ">>" (Var "f") (Num 25)) (Op2 "<<" (Var "f") (Num 7))))) (Op2 "^" (Var "h") (Op2 "&" (Var "f") (Op2 "^" (Var "g") (Var "h"))))) (Num 1996064986)) (Var "w7"));
      Assign "t2_24" (Op2 "+" (Op2 "^" (Op2 "^" (Op2 "|" (Op2 ">>" (Var "b") (Num 2)) (Op2 "<<" (Var "b") (Num 30))) (Op2 "|" (Op2 ">>" (Var "b") (Num 13)) (Op2 "<<" (Var "b") (Num 19)))) (Op2 "|" (Op2 ">>" (Var "b") (Num 22)) (Op2 "<<" (Var "b") (Num 10)))) (Op2 "|" (Op2 "&" (Var "b") (Var "c")) (Op2 "&" (Var "d") (Op2 "|" (Var "b") (Var "c")))));
      Assign "e" (Op2 "+" (Var "e") (Var "t1_24"));
      Assign "a" (Op2 "+" (Var "t1_24") (Var "t2_24"));
      Assign "w8" (Op2 "+" (Var "w8") (Op2 "+" (Op2 "+" (Op2 "^" (Op2 "^" (Op2 "|" (Op2 ">>" (Var "w6") (Num 17)) (Op2 "<<" (Var "w6") (Num 15))) (Op2 "|" (Op2 ">>" (Var "w6") (Num 19)) (Op2 "<<" (Var "w6") (Num 13)))) (Op2 ">>" (Var "w6") (Num 10))) (Var "w1")) (Op2 "^" (Op2 "^" (Op2 "|" (Op2 ">>" (Var "w9") (Num 7)) (Op2 "<<" (Var "w9") (Num 25))) (Op2 "|" (Op2 ">>" (Var "w9") (Num 18)) (Op2 "<<" (Var "w9") (Num 14)))) (Op2 ">>" (Var "w9") (Num 3)))));
      Assign "t1_25" (Op2 "+" (Op2 "+" (Op2 "+" (Op2 "+" (Var "h") (Op2 "^" (Op2 "^" (Op2 "|" (Op2 ">>" (Var "e") (Num 6)) (Op2 "<<" (Var "e") (Num 26))) (Op2 "|" (Op2 ">>" (Var "e") (Num 11)) (Op2 "<<" (Var "e") (Num 21)))) (Op2 "|" (Op2 ">>" (Var "e") (Num 25)) (Op2 "<<" (Var "e") (Num 7))))) (Op2 "^" (Var "g") (Op2 "&" (Var "e") (Op2 "^" (Var "f") (Var "g"))))) (Num 2554220882)) (Var "w8"));
      Assign "t2_25" (Op2 "+" (Op2 "^" (Op2 "^" (Op2 "|" (Op2 ">>" (Var "a") (Num 2)) (Op2 "<<" (Var "a") (Num 30))) (Op2 "|" (Op2 ">>" (Var "a") (Num 13)) (Op2 "<<" (Var "a") (Num 19)))) (Op2 "|" (Op2 ">>" (Var "a") (Num 22)) (Op2 "<<" (Var "a") (Num 10)))) (Op2 "|" (Op2 "&" (Var "a") (Var "b")) (Op2 "&" (Var "c") (Op2 "|" (Var "a") (Var "b")))));
      Assign "d" (Op2 "+" (Var "d") (Var "t1_25"));
      Assign "h" (Op2 "+" (Var "t1_25") (Var "t2_25"));
      Assign "w9" (Op2 "+" (Var "w9") (Op2 "+" (Op2 "+" (Op2 "^" (Op2 "^" (Op2 "|" (Op2 ">>" (Var "w7") (Num 17)) (Op2 "<<" (Var "w7") (Num 15))) (Op2 "|" (Op2 ">>" (Var "w7") (Num 19)) (Op2 "<<" (Var "w7") (Num 13)))) (Op2 ">>" (Var "w7") (Num 10))) (Var "w2")) (Op2 "^" (Op2 "^" (Op2 "|" (Op2 ">>" (Var "w10") (Num 7)) (Op2 "<<" (Var "w10") (Num 25))) (Op2 "|" (Op2 ">>" (Var "w10") (Num 18)) (Op2 "<<" (Var "w10") (Num 14)))) (Op2 ">>" (Var "w10") (Num 3)))));
      Assign "t1_26" (Op2 "+" (Op2 "+" (Op2 "+" (Op2 "+" (Var "g") (Op2 "^" (Op2 "^" (Op2 "|" (Op2 ">>" (Var "d") (Num 6)) (Op2 "<<" (Var "d") (Num 26))) (Op2 "|" (Op2 ">>" (Var "d") (Num 11)) (Op2 "<<" (Var "d") (Num 21)))) (Op2 "|" (Op2 ">>" (Var "d") (Num 25)) (Op2 "<<" (Var "d") (Num 7))))) (Op2 "^" (Var "f") (Op2 "&" (Var "d") (Op2 "^" (Var "e") (Var "f"))))) (Num 2821834349)) (Var "w9"));
      Assign "t2_26" (Op2 "+" (Op2 "^" (Op2 "^" (Op2 "|" (Op2 ">>" (Var "h") (Num 2)) (Op2 "<<" (Var "h") (Num 30))) (Op2 "|" (Op2 ">>" (Var "h") (Num 13)) (Op2 "<<" (Var "h") (Num 19)))) (Op2 "|" (Op2 ">>" (Var "h") (Num 22)) (Op2 "<<" (Var "h") (Num 10)))) (Op2 "|" (Op2 "&" (Var "h") (Var "a")) (Op2 "&" (Var "b") (Op2 "|" (Var "h") (Var "a")))));
      Assign "c" (Op2 "+" (Var "c") (Var "t1_26"));
      Assign "g" (Op2 "+" (Var "t1_26") (Var "t2_26"));
      Assign "w10" (Op2 "+" (Var "w10") (Op2 "+" (Op2 "+" (Op2 "^" (Op2 "^" (Op2 "|" (Op2 ">>" (Var "w8") (Num 17)) (Op2 "<<" (Var "w8") (Num 15))) (Op2 "|" (Op2 ">>" (Var "w8") (Num 19)) (Op2 "<<" (Var "w8") (Num 13)))) (Op2 ">>" (Var "w8") (Num 10))) (Var "w3")) (Op2 "^" (Op2 "^" (Op2 "|" (Op2 ">>" (Var "w11") (Num 7)) (Op2 "<<" (Var "w11") (Num 25))) (Op2 "|" (Op2 ">>" (Var "w11") (Num 18)) (Op2 "<<" (Var "w11") (Num 14)))) (Op2 ">>" (Var "w11") (Num 3)))));
      Assign "t1_27" (Op2 "+" (Op2 "+" (Op2 "+" (Op2 "+" (Var "f") (Op2 "^" (Op2 "^" (Op2 "|" (Op2 ">>" (Var "c") (Num 6)) (Op2 "<<" (Var "c") (Num 26))) (Op2 "|" (Op2 ">>" (Var "c") (Num 11)) (Op2 "<<" (Var "c") (Num 21)))) (Op2 "|" (Op2 ">>" (Var "c") (Num 25)) (Op2 "<<" (Var "c") (Num 7))))) (Op2 "^" (Var "e") (Op2 "&" (Var "c") (Op2 "^" (Var "d") (Var "e"))))) (Num 2952996808)) (Var "w10"));
      Assign "t2_27" (Op2 "+" (Op2 "^" (Op2 "^" (Op2 "|" (Op2 ">>" (Var "g") (Num 2)) (Op2 "<<" (Var "g") (Num 30))) (Op2 "|" (Op2 ">>" (Var "g") (Num 13)) (Op2 "<<" (Var "g") (Num 19)))) (Op2 "|" (Op2 ">>" (Var "g") (Num 22)) (Op2 "<<" (Var "g") (Num 10)))) (Op2 "|" (Op2 "&" (Var "g") (Var "h")) (Op2 "&" (Var "a") (Op2 "|" (Var "g") (Var "h")))));
      Assign "b" (Op2 "+" (Var "b") (Var "t1_27"));
      Assign "f" (Op2 "+" (Var "t1_27") (Var "t2_27"));
      Assign "w11" (Op2 "+" (Var "w11") (Op2 "+" (Op2 "+" (Op2 "^" (Op2 "^" (Op2 "|" (Op2 ">>" (Var "w9") (Num 17)) (Op2 "<<" (Var "w9") (Num 15))) (Op2 "|" (Op2 ">>" (Var "w9") (Num 19)) (Op2 "<<" (Var "w9") (Num 13)))) (Op2 ">>" (Var "w9") (Num 10))) (Var "w4")) (Op2 "^" (Op2 "^" (Op2 "|" (Op2 ">>" (Var "w12") (Num 7)) (Op2 "<<" (Var "w12") (Num 25))) (Op2 "|" (Op2 ">>" (Var "w12") (Num 18)) (Op2 "<<" (Var "w12") (Num 14)))) (Op2 ">>" (Var "w12") (Num 3)))));
      Assign "t1_28" (Op2 "+" (Op2 "+" (Op2 "+" (Op2 "+" (Var "e") (Op2 "^" (Op2 "^" (Op2 "|" (Op2 ">>" (Var "b") (Num 6)) (Op2 "<<" (Var "b") (Num 26))) (Op2 "|" (Op2 ">>" (Var "b") (Num 11)) (Op2 "<<" (Var "b") (Num 21)))) (Op2 "|" (Op2 ">>" (Var "b") (Num 25)) (Op2 "<<" (Var "b") (Num 7))))) (Op2 "^" (Var "d") (Op2 "&" (Var "b") (Op2 "^" (Var "c") (Var "d"))))) (Num 3210313671)) (Var "w11"));
      Assign "t2_28" (Op2 "+" (Op2 "^" (Op2 "^" (Op2 "|" (Op2 ">>" (Var "f") (Num 2)) (Op2 "<<" (Var "f") (Num 30))) (Op2 "|" (Op2 ">>" (Var "f") (Num 13)) (Op2 "<<" (Var "f") (Num 19)))) (Op2 "|" (Op2 ">>" (Var "f") (Num 22)) (Op2 "<<" (Var "f") (Num 10)))) (Op2 "|" (Op2 "&" (Var "f") (Var "g")) (Op2 "&" (Var "h") (Op2 "|" (Var "f") (Var "g")))));
      Assign "a" (Op2 "+" (Var "a") (Var "t1_28"));
      Assign "e" (Op2 "+" (Var "t1_28") (Var "t2_28"));
      Assign "w12" (Op2 "+" (Var "w12") (Op2 "+" (Op2 "+" (Op2 "^" (Op2 "^" (Op2 "|" (Op2 ">>" (Var "w10") (Num 17)) (Op2 "<<" (Var "w10") (Num 15))) (Op2 "|" (Op2 ">>" (Var "w10") (Num 19)) (Op2 "<<" (Var "w10") (Num 13)))) (Op2 ">>" (Var "w10") (Num 10))) (Var "w5")) (Op2 "^" (Op2 "^" (Op2 "|" (Op2 ">>" (Var "w13") (Num 7)) (Op2 "<<" (Var "w13") (Num 25))) (Op2 "|" (Op2 ">>" (Var "w13") (Num 18)) (Op2 "<<" (Var "w13") (Num 14)))) (Op2 ">>" (Var "w13") (Num 3)))));
      Assign "t1_29" (Op2 "+" (Op2 "+" (Op2 "+" (Op2 "+" (Var "d") (Op2 "^" (Op2 "^" (Op2 "|" (Op2 ">>" (Var "a") (Num 6)) (Op2 "<<" (Var "a") (Num 26))) (Op2 "|" (Op2 ">>" (Var "a") (Num 11)) (Op2 "<<" (Var "a") (Num 21)))) (Op2 "|" (Op2 ">>" (Var "a") (Num 25)) (Op2 "<<" (Var "a") (Num 7))))) (Op2 "^" (Var "c") (Op2 "&" (Var "a") (Op2 "^" (Var "b") (Var "c"))))) (Num 3336571891)) (Var "w12"));
      Assign "t2_29" (Op2 "+" (Op2 "^" (Op2 "^" (Op2 "|" (Op2 ">>" (Var "e") (Num 2)) (Op2 "<<" (Var "e") (Num 30))) (Op2 "|" (Op2 ">>" (Var "e") (Num 13)) (Op2 "<<" (Var "e") (Num 19)))) (Op2 "|" (Op2 ">>" (Var "e") (Num 22)) (Op2 "<<" (Var "e") (Num 10)))) (Op2 "|" (Op2 "&" (Var "e") (Var "f")) (Op2 "&" (Var "g") (Op2 "|" (Var "e") (Var "f")))));
      Assign "h" (Op2 "+" (Var "h") (Var "t1_29"));
      Assign "d" (Op2 "+" (Var "t1_29") (Var "t2_29"));
      Assign "w13" (Op2 "+" (Var "w13") (Op2 "+" (Op2 "+" (Op2 "^" (Op2 "^" (Op2 "|" (Op2 ">>" (Var "w11") (Num 17)) (Op2 "<<" (Var "w11") (Num 15))) (Op2 "|" (Op2 ">>" (Var "w11") (Num 19)) (Op2 "<<" (Var "w11") (Num 13)))) (Op2 ">>" (Var "w11") (Num 10))) (Var "w6")) (Op2 "^" (Op2 "^" (Op2 "|" (Op2 ">>" (Var "w14") (Num 7)) (Op2 "<<" (Var "w14") (Num 25))) (Op2 "|" (Op2 ">>" (Var "w14") (Num 18)) (Op2 "<<" (Var "w14") (Num 14)))) (Op2 ">>" (Var "w14") (Num 3)))));
      Assign "t1_30" (Op2 "+" (Op2 "+" (Op2 "+" (Op2 "+" (Var "c") (Op2 "^" (Op2 "^" (Op2 "|" (Op2 ">>" (Var "h") (Num 6)) (Op2 "<<" (Var "h") (Num 26))) (Op2 "|" (Op2 ">>" (Var "h") (Num 11)) (Op2 "<<" (Var "h") (Num 21)))) (Op2 "|" (Op2 ">>" (Var "h") (Num 25)) (Op2 "<<" (Var "h") (Num 7))))) (Op2 "^" (Var "b") (Op2 "&" (Var "h") (Op2 "^" (Var "a") (Var "b"))))) (Num 3584528711)) (Var "w13"));
      Assign "t2_30" (Op2 "+" (Op2 "^" (Op2 "^" (Op2 "|" (Op2 ">>" (Var "d") (Num 2)) (Op2 "<<" (Var "d") (Num 30))) (Op2 "|" (Op2 ">>" (Var "d") (Num 13)) (Op2 "<<" (Var "d") (Num 19)))) (Op2 "|" (Op2 ">>" (Var "d") (Num 22)) (Op2 "<<" (Var "d") (Num 10)))) (Op2 "|" (Op2 "&" (Var "d") (Var "e")) (Op2 "&" (Var "f") (Op2 "|" (Var "d") (Var "e")))));
      Assign "g" (Op2 "+" (Var "g") (Var "t1_30"));
      Assign "c" (Op2 "+" (Var "t1_30") (Var "t2_30"));
      Assign "w14" (Op2 "+" (Var "w14") (Op2 "+" (Op2 "+" (Op2 "^" (Op2 "^" (Op2 "|" (Op2 ">>" (Var "w12") (Num 17)) (Op2 "<<" (Var "w12") (Num 15))) (Op2 "|" (Op2 ">>" (Var "w12") (Num 19)) (Op2 "<<" (Var "w12") (Num 13)))) (Op2 ">>" (Var "w12") (Num 10))) (Var "w7")) (Op2 "^" (Op2 "^" (Op2 "|" (Op2 ">>" (Var "w15") (Num 7)) (Op2 "<<" (Var "w15") (Num 25))) (Op2 "|" (Op2 ">>" (Var "w15") (Num 18)) (Op2 "<<" (Var "w15") (Num 14)))) (Op2 ">>" (Var "w15") (Num 3)))));
      Assign "t1_31" (Op2 "+" (Op2 "+" (Op2 "+" (Op2 "+" (Var "b") (Op2 "^" (Op2 "^" (Op2 "|" (Op2 ">>" (Var "g") (Num 6)) (Op2 "<<" (Var "g") (Num 26))) (Op2 "|" (Op2 ">>" (Var "g") (Num 11)) (Op2 "<<" (Var "g") (Num 21)))) (Op2 "|" (Op2 ">>" (Var "g") (Num 25)) (Op2 "<<" (Var "g") (Num 7))))) (Op2 "^" (Var "a") (Op2 "&" (Var "g") (Op2 "^" (Var "h") (Var "a"))))) (Num 113926993)) (Var "w14"));
      Assign "t2_31" (Op2 "+" (Op2 "^" (Op2 "^" (Op2 "|" (Op2 ">>" (Var "c") (Num 2)) (Op2 "<<" (Var "c") (Num 30))) (Op2 "|" (Op2 ">>" (Var "c") (Num 13)) (Op2 "<<" (Var "c") (Num 19)))) (Op2 "|" (Op2 ">>" (Var "c") (Num 22)) (Op2 "<<" (Var "c") (Num 10)))) (Op2 "|" (Op2 "&" (Var "c") (Var "d")) (Op2 "&" (Var "e") (Op2 "|" (Var "c") (Var "d")))));
      Assign "f" (Op2 "+" (Var "f") (Var "t1_31"));
      Assign "b" (Op2 "+" (Var "t1_31") (Var "t2_31"));
      Assign "w15" (Op2 "+" (Var "w15") (Op2 "+" (Op2 "+" (Op2 "^" (Op2 "^" (Op2 "|" (Op2 ">>" (Var "w13") (Num 17)) (Op2 "<<" (Var "w13") (Num 15))) (Op2 "|" (Op2 ">>" (Var "w13") (Num 19)) (Op2 "<<" (Var "w13") (Num 13)))) (Op2 ">>" (Var "w13") (Num 10))) (Var "w8")) (Op2 "^" (Op2 "^" (Op2 "|" (Op2 ">>" (Var "w0") (Num 7)) (Op2 "<<" (Var "w0") (Num 25))) (Op2 "|" (Op2 ">>" (Var "w0") (Num 18)) (Op2 "<<" (Var "w0") (Num 14)))) (Op2 ">>" (Var "w0") (Num 3)))));
      Assign "t1_32" (Op2 "+" (Op2 "+" (Op2 "+" (Op2 "+" (Var "a") (Op2 "^" (Op2 "^" (Op2 "|" (Op2 ">>" (Var "f") (Num 6)) (Op2 "<<" (Var "f") (Num 26))) (Op2 "|" (Op2 ">>" (Var "f") (Num 11)) (Op2 "<<" (Var "f") (Num 21)))) (Op2 "|" (Op2 ">>" (Var "f") (Num 25)) (Op2 "<<" (Var "f") (Num 7))))) (Op2 "^" (Var "h") (Op2 "&" (Var "f") (Op2 "^" (Var "g") (Var "h"))))) (Num 338241895)) (Var "w15"));
      Assign "t2_32" (Op2 "+" (Op2 "^" (Op2 "^" (Op2 "|" (Op2 ">>" (Var "b") (Num 2)) (Op2 "<<" (Var "b") (Num 30))) (Op2 "|" (Op2 ">>" (Var "b") (Num 13)) (Op2 "<<" (Var "b") (Num 19)))) (Op2 "|" (Op2 ">>" (Var "b") (Num 22)) (Op2 "<<" (Var "b") (Num 10)))) (Op2 "|" (Op2 "&" (Var "b") (Var "c")) (Op2 "&" (Var "d") (Op2 "|" (Var "b") (Var "c")))));
      Assign "e" (Op2 "+" (Var "e") (Var "t1_32"));
      Assign "a" (Op2 "+" (Var "t1_32") (Var "t2_32"));
      Assign "w0" (Op2 "+" (Var "w0") (Op2 "+" (Op2 "+" (Op2 "^" (Op2 "^" (Op2 "|" (Op2 ">>" (Var "w14") (Num 17)) (Op2 "<<" (Var "w14") (Num 15))) (Op2 "|" (Op2 ">>" (Var "w14") (Num 19)) (Op2 "<<" (Var "w14") (Num 13)))) (Op2 ">>" (Var "w14") (Num 10))) (Var "w9")) (Op2 "^" (Op2 "^" (Op2 "|" (Op2 ">>" (Var "w1") (Num 7)) (Op2 "<<" (Var "w1") (Num 25))) (Op2 "|" (Op2 ">>" (Var "w1") (Num 18)) (Op2 "<<" (Var "w1") (Num 14)))) (Op2 ">>" (Var "w1") (Num 3)))));
      Assign "t1_33" (Op2 "+" (Op2 "+" (Op2 "+" (Op2 "+" (Var "h") (Op2 "^" (Op2 "^" (Op2 "|" (Op2 ">>" (Var "e") (Num 6)) (Op2 "<<" (Var "e") (Num 26))) (Op2 "|" (Op2 ">>" (Var "e") (Num 11)) (Op2 "<<" (Var "e") (Num 21)))) (Op2 "|" (Op2 ">>" (Var "e") (Num 25)) (Op2 "<<" (Var "e") (Num 7))))) (Op2 "^" (Var "g") (Op2 "&" (Var "e") (Op2 "^" (Var "f") (Var "g"))))) (Num 666307205)) (Var "w0"));
      Assign "t2_33" (Op2 "+" (Op2 "^" (Op2 "^" (Op2 "|" (Op2 ">>" (Var "a") (Num 2)) (Op2 "<<" (Var "a") (Num 30))) (Op2 "|" (Op2 ">>" (Var "a") (Num 13)) (Op2 "<<" (Var "a") (Num 19)))) (Op2 "|" (Op2 ">>" (Var "a") (Num 22)) (Op2 "<<" (Var "a") (Num 10)))) (Op2 "|" (Op2 "&" (Var "a") (Var "b")) (Op2 "&" (Var "c") (Op2 "|" (Var "a") (Var "b")))));
      Assign "d" (Op2 "+" (Var "d") (Var "t1_33"));
      Assign "h" (Op2 "+" (Var "t1_33") (Var "t2_33"));
      Assign "w1" (Op2 "+" (Var "w1") (Op2 "+" (Op2 "+" (Op2 "^" (Op2 "^" (Op2 "|" (Op2 ">>" (Var "w15") (Num 17)) (Op2 "<<" (Var "w15") (Num 15))) (Op2 "|" (Op2 ">>" (Var "w15") (Num 19)) (Op2 "<<" (Var "w15") (Num 13)))) (Op2 ">>" (Var "w15") (Num 10))) (Var "w10")) (Op2 "^" (Op2 "^" (Op2 "|" (Op2 ">>" (Var "w2") (Num 7)) (Op2 "<<" (Var "w2") (Num 25))) (Op2 "|" (Op2 ">>" (Var "w2") (Num 18)) (Op2 "<<" (Var "w2") (Num 14)))) (Op2 ">>" (Var "w2") (Num 3)))));
      Assign "t1_34" (Op2 "+" (Op2 "+" (Op2 "+" (Op2 "+" (Var "g") (Op2 "^" (Op2 "^" (Op2 "|" (Op2 ">>" (Var "d") (Num 6)) (Op2 "<<" (Var "d") (Num 26))) (Op2 "|" (Op2 ">>" (Var "d") (Num 11)) (Op2 "<<" (Var "d") (Num 21)))) (Op2 "|" (Op2 ">>" (Var "d") (Num 25)) (Op2 "<<" (Var "d") (Num 7))))) (Op2 "^" (Var "f") (Op2 "&" (Var "d") (Op2 "^" (Var "e") (Var "f"))))) (Num 773529912)) (Var "w1"));
      Assign "t2_34" (Op2 "+" (Op2 "^" (Op2 "^" (Op2 "|" (Op2 ">>" (Var "h") (Num 2)) (Op2 "<<" (Var "h") (Num 30))) (Op2 "|" (Op2 ">>" (Var "h") (Num 13)) (Op2 "<<" (Var "h") (Num 19)))) (Op2 "|" (Op2 ">>" (Var "h") (Num 22)) (Op2 "<<" (Var "h") (Num 10)))) (Op2 "|" (Op2 "&" (Var "h") (Var "a")) (Op2 "&" (Var "b") (Op2 "|" (Var "h") (Var "a")))));
      Assign "c" (Op2 "+" (Var "c") (Var "t1_34"));
      Assign "g" (Op2 "+" (Var "t1_34") (Var "t2_34"));
      Assign "w2" (Op2 "+" (Var "w2") (Op2 "+" (Op2 "+" (Op2 "^" (Op2 "^" (Op2 "|" (Op2 ">>" (Var "w0") (Num 17)) (Op2 "<<" (Var "w0") (Num 15))) (Op2 "|" (Op2 ">>" (Var "w0") (Num 19)) (Op2 "<<" (Var "w0") (Num 13)))) (Op2 ">>" (Var "w0") (Num 10))) (Var "w11")) (Op2 "^" (Op2 "^" (Op2 "|" (Op2 ">>" (Var "w3") (Num 7)) (Op2 "<<" (Var "w3") (Num 25))) (Op2 "|" (Op2 ">>" (Var "w3") (Num 18)) (Op2 "<<" (Var "w3") (Num 14)))) (Op2 ">>" (Var "w3") (Num 3)))));
      Assign "t1_35" (Op2 "+" (Op2 "+" (Op2 "+" (Op2 "+" (Var "f") (Op2 "^" (Op2 "^" (Op2 "|" (Op2 ">>" (Var "c") (Num 6)) (Op2 "<<" (Var "c") (Num 26))) (Op2 "|" (Op2 ">>" (Var "c") (Num 11)) (Op2 "<<" (Var "c") (Num 21)))) (Op2 "|" (Op2 ">>" (Var "c") (Num 25)) (Op2 "<<" (Var "c") (Num 7))))) (Op2 "^" (Var "e") (Op2 "&" (Var "c") (Op2 "^" (Var "d") (Var "e"))))) (Num 1294757372)) (Var "w2"));
      Assign "t2_35" (Op2 "+" (Op2 "^" (Op2 "^" (Op2 "|" (Op2 ">>" (Var "g") (Num 2)) (Op2 "<<" (Var "g") (Num 30))) (Op2 "|" (Op2 ">>" (Var "g") (Num 13)) (Op2 "<<" (Var "g") (Num 19)))) (Op2 "|" (Op2 ">>" (Var "g") (Num 22)) (Op2 "<<" (Var "g") (Num 10)))) (Op2 "|" (Op2 "&" (Var "g") (Var "h")) (Op2 "&" (Var "a") (Op2 "|" (Var "g") (Var "h")))));
      Assign "b" (Op2 "+" (Var "b") (Var "t1_35"));
      Assign "f" (Op2 "+" (Var "t1_35") (Var "t2_35"));
      Assign "w3" (Op2 "+" (Var "w3") (Op2 "+" (Op2 "+" (Op2 "^" (Op2 "^" (Op2 "|" (Op2 ">>" (Var "w1") (Num 17)) (Op2 "<<" (Var "w1") (Num 15))) (Op2 "|" (Op2 ">>" (Var "w1") (Num 19)) (Op2 "<<" (Var "w1") (Num 13)))) (Op2 ">>" (Var "w1") (Num 10))) (Var "w12")) (Op2 "^" (Op2 "^" (Op2 "|" (Op2 ">>" (Var "w4") (Num 7)) (Op2 "<<" (Var "w4") (Num 25))) (Op2 "|" (Op2 ">>" (Var "w4") (Num 18)) (Op2 "<<" (Var "w4") (Num 14)))) (Op2 ">>" (Var "w4") (Num 3)))));
      Assign "t1_36" (Op2 "+" (Op2 "+" (Op2 "+" (Op2 "+" (Var "e") (Op2 "^" (Op2 "^" (Op2 "|" (Op2 ">>" (Var "b") (Num 6)) (Op2 "<<" (Var "b") (Num 26))) (Op2 "|" (Op2 ">>" (Var "b") (Num 11)) (Op2 "<<" (Var "b") (Num 21)))) (Op2 "|" (Op2 ">>" (Var "b") (Num 25)) (Op2 "<<" (Var "b") (Num 7))))) (Op2 "^" (Var "d") (Op2 "&" (Var "b") (Op2 "^" (Var "c") (Var "d"))))) (Num 1396182291)) (Var "w3"));
      Assign "t2_36" (Op2 "+" (Op2 "^" (Op2 "^" (Op2 "|" (Op2 ">>" (Var "f") (Num 2)) (Op2 "<<" (Var "f") (Num 30))) (Op2 "|" (Op2 ">>" (Var "f") (Num 13)) (Op2 "<<" (Var "f") (Num 19)))) (Op2 "|" (Op2 ">>" (Var "f") (Num 22)) (Op2 "<<" (Var "f") (Num 10)))) (Op2 "|" (Op2 "&" (Var "f") (Var "g")) (Op2 "&" (Var "h") (Op2 "|" (Var "f") (Var "g")))));
      Assign "a" (Op2 "+" (Var "a") (Var "t1_36"));
      Assign "e" (Op2 "+" (Var "t1_36") (Var "t2_36"));
      Assign "w4" (Op2 "+" (Var "w4") (Op2 "+" (Op2 "+" (Op2 "^" (Op2 "^" (Op2 "|" (Op2 ">>" (Var "w2") (Num 17)) (Op2 "<<" (Var "w2") (Num 15))) (Op2 "|" (Op2 ">>" (Var "w2") (Num 19)) (Op2 "<<" (Var "w2") (Num 13)))) (Op2 ">>" (Var "w2") (Num 10))) (Var "w13")) (Op2 "^" (Op2 "^" (Op2 "|" (Op2 ">>" (Var "w5") (Num 7)) (Op2 "<<" (Var "w5") (Num 25))) (Op2 "|" (Op2 ">>" (Var "w5") (Num 18)) (Op2 "<<" (Var "w5") (Num 14)))) (Op2 ">>" (Var "w5") (Num 3)))));
      Assign "t1_37" (Op2 "+" (Op2 "+" (Op2 "+" (Op2 "+" (Var "d") (Op2 "^" (Op2 "^" (Op2 "|" (Op2 ">>" (Var "a") (Num 6)) (Op2 "<<" (Var "a") (Num 26))) (Op2 "|" (Op2 ">>" (Var "a") (Num 11)) (Op2 "<<" (Var "a") (Num 21)))) (Op2 "|" (Op2 ">>" (Var "a") (Num 25)) (Op2 "<<" (Var "a") (Num 7))))) (Op2 "^" (Var "c") (Op2 "&" (Var "a") (Op2 "^" (Var "b") (Var "c"))))) (Num 1695183700)) (Var "w4"));
      Assign "t2_37" (Op2 "+" (Op2 "^" (Op2 "^" (Op2 "|" (Op2 ">>" (Var "e") (Num 2)) (Op2 "<<" (Var "e") (Num 30))) (Op2 "|" (Op2 ">>" (Var "e") (Num 13)) (Op2 "<<" (Var "e") (Num 19)))) (Op2 "|" (Op2 ">>" (Var "e") (Num 22)) (Op2 "<<" (Var "e") (Num 10)))) (Op2 "|" (Op2 "&" (Var "e") (Var "f")) (Op2 "&" (Var "g") (Op2 "|" (Var "e") (Var "f")))));
      Assign "h" (Op2 "+" (Var "h") (Var "t1_37"));
      Assign "d" (Op2 "+" (Var "t1_37") (Var "t2_37"));
      Assign "w5" (Op2 "+" (Var "w5") (Op2 "+" (Op2 "+" (Op2 "^" (Op2 "^" (Op2 "|" (Op2 ">>" (Var "w3") (Num 17)) (Op2 "<<" (Var "w3") (Num 15))) (Op2 "|" (Op2 ">>" (Var "w3") (Num 19)) (Op2 "<<" (Var "w3") (Num 13)))) (Op2 ">>" (Var "w3") (Num 10))) (Var "w14")) (Op2 "^" (Op2 "^" (Op2 "|" (Op2 ">>" (Var "w6") (Num 7)) (Op2 "<<" (Var "w6") (Num 25))) (Op2 "|" (Op2 ">>" (Var "w6") (Num 18)) (Op2 "<<" (Var "w6") (Num 14)))) (Op2 ">>" (Var "w6") (Num 3)))));
      Assign "t1_38" (Op2 "+" (Op2 "+" (Op2 "+" (Op2 "+" (Var "c") (Op2 "^" (Op2 "^" (Op2 "|" (Op2 ">>" (Var "h") (Num 6)) (Op2 "<<" (Var "h") (Num 26))) (Op2 "|" (Op2 ">>" (Var "h") (Num 11)) (Op2 "<<" (Var "h") (Num 21)))) (Op2 "|" (Op2 ">>" (Var "h") (Num 25)) (Op2 "<<" (Var "h") (Num 7))))) (Op2 "^" (Var "b") (Op2 "&" (Var "h") (Op2 "^" (Var "a") (Var "b"))))) (Num 1986661051)) (Var "w5"));
      Assign "t2_38" (Op2 "+" (Op2 "^" (Op2 "^" (Op2 "|" (Op2 ">>" (Var "d") (Num 2)) (Op2 "<<" (Var "d") (Num 30))) (Op2 "|" (Op2 ">>" (Var "d") (Num 13)) (Op2 "<<" (Var "d") (Num 19)))) (Op2 "|" (Op2 ">>" (Var "d") (Num 22)) (Op2 "<<" (Var "d") (Num 10)))) (Op2 "|" (Op2 "&" (Var "d") (Var "e")) (Op2 "&" (Var "f") (Op2 "|" (Var "d") (Var "e")))));
      Assign "g" (Op2 "+" (Var "g") (Var "t1_38"));
      Assign "c" (Op2 "+" (Var "t1_38") (Var "t2_38"));
      Assign "w6" (Op2 "+" (Var "w6") (Op2 "+" (Op2 "+" (Op2 "^" (Op2 "^" (Op2 "|" (Op2 ">>" (Var "w4") (Num 17)) (Op2 "<<" (Var "w4") (Num 15))) (Op2 "|" (Op2 ">>" (Var "w4") (Num 19)) (Op2 "<<" (Var "w4") (Num 13)))) (Op2 ">>" (Var "w4") (Num 10))) (Var "w15")) (Op2 "^" (Op2 "^" (Op2 "|" (Op2 ">>" (Var "w7") (Num 7)) (Op2 "<<" (Var "w7") (Num 25))) (Op2 "|" (Op2 ">>" (Var "w7") (Num 18)) (Op2 "<<" (Var "w7") (Num 14)))) (Op2 ">>" (Var "w7") (Num 3)))));
      Assign "t1_39" (Op2 "+" (Op2 "+" (Op2 "+" (Op2 "+" (Var "b") (Op2 "^" (Op2 "^" (Op2 "|" (Op2 ">>" (Var "g") (Num 6)) (Op2 "<<" (Var "g") (Num 26))) (Op2 "|" (Op2 ">>" (Var "g") (Num 11)) (Op2 "<<" (Var "g") (Num 21)))) (Op2 "|" (Op2 ">>" (Var "g") (Num 25)) (Op2 "<<" (Var "g") (Num 7))))) (Op2 "^" (Var "a") (Op2 "&" (Var "g") (Op2 "^" (Var "h") (Var "a"))))) (Num 2177026350)) (Var "w6"));
      Assign "t2_39" (Op2 "+" (Op2 "^" (Op2 "^" (Op2 "|" (Op2 ">>" (Var "c") (Num 2)) (Op2 "<<" (Var "c") (Num 30))) (Op2 "|" (Op2 ">>" (Var "c") (Num 13)) (Op2 "<<" (Var "c") (Num 19)))) (Op2 "|" (Op2 ">>" (Var "c") (Num 22)) (Op2 "<<" (Var "c") (Num 10)))) (Op2 "|" (Op2 "&" (Var "c") (Var "d")) (Op2 "&" (Var "e") (Op2 "|" (Var "c") (Var "d")))));
      Assign "f" (Op2 "+" (Var "f") (Var "t1_39"));
      Assign "b" (Op2 "+" (Var "t1_39") (Var "t2_39"));
      Assign "w7" (Op2 "+" (Var "w7") (Op2 "+" (Op2 "+" (Op2 "^" (Op2 "^" (Op2 "|" (Op2 ">>" (Var "w5") (Num 17)) (Op2 "<<" (Var "w5") (Num 15))) (Op2 "|" (Op2 ">>" (Var "w5") (Num 19)) (Op2 "<<" (Var "w5") (Num 13)))) (Op2 ">>" (Var "w5") (Num 10))) (Var "w0")) (Op2 "^" (Op2 "^" (Op2 "|" (Op2 ">>" (Var "w8") (Num 7)) (Op2 "<<" (Var "w8") (Num 25))) (Op2 "|" (Op2 ">>" (Var "w8") (Num 18)) (Op2 "<<" (Var "w8") (Num 14)))) (Op2 ">>" (Var "w8") (Num 3)))));
      Assign "t1_40" (Op2 "+" (Op2 "+" (Op2 "+" (Op2 "+" (Var "a") (Op2 "^" (Op2 "^" (Op2 "|" (Op2 ">>" (Var "f") (Num 6)) (Op2 "<<" (Var "f") (Num 26))) (Op2 "|" (Op2 ">>" (Var "f") (Num 11)) (Op2 "<<" (Var "f") (Num 21)))) (Op2 "|" (Op2 ">>" (Var "f") (Num 25)) (Op2 "<<" (Var "f") (Num 7))))) (Op2 "^" (Var "h") (Op2 "&" (Var "f") (Op2 "^" (Var "g") (Var "h"))))) (Num 2456956037)) (Var "w7"));
      Assign "t2_40" (Op2 "+" (Op2 "^" (Op2 "^" (Op2 "|" (Op2 ">>" (Var "b") (Num 2)) (Op2 "<<" (Var "b") (Num 30))) (Op2 "|" (Op2 ">>" (Var "b") (Num 13)) (Op2 "<<" (Var "b") (Num 19)))) (Op2 "|" (Op2 ">>" (Var "b") (Num 22)) (Op2 "<<" (Var "b") (Num 10)))) (Op2 "|" (Op2 "&" (Var "b") (Var "c")) (Op2 "&" (Var "d") (Op2 "|" (Var "b") (Var "c")))));
      Assign "e" (Op2 "+" (Var "e") (Var "t1_40"));
      Assign "a" (Op2 "+" (Var "t1_40") (Var "t2_40"));
      Assign "w8" (Op2 "+" (Var "w8") (Op2 "+" (Op2 "+" (Op2 "^" (Op2 "^" (Op2 "|" (Op2 ">>" (Var "w6") (Num 17)) (Op2 "<<" (Var "w6") (Num 15))) (Op2 "|" (Op2 ">>" (Var "w6") (Num 19)) (Op2 "<<" (Var "w6") (Num 13)))) (Op2 ">>" (Var "w6") (Num 10))) (Var "w1")) (Op2 "^" (Op2 "^" (Op2 "|" (Op2 ">>" (Var "w9") (Num 7)) (Op2 "<<" (Var "w9") (Num 25))) (Op2 "|" (Op2 ">>" (Var "w9") (Num 18)) (Op2 "<<" (Var "w9") (Num 14)))) (Op2 ">>" (Var "w9") (Num 3)))));
      Assign "t1_41" (Op2 "+" (Op2 "+" (Op2 "+" (Op2 "+" (Var "h") (Op2 "^" (Op2 "^" (Op2 "|" (Op2 ">>" (Var "e") (Num 6)) (Op2 "<<" (Var "e") (Num 26))) (Op2 "|" (Op2 ">>" (Var "e") (Num 11)) (Op2 "<<" (Var "e") (Num 21)))) (Op2 "|" (Op2 ">>" (Var "e") (Num 25)) (Op2 "<<" (Var "e") (Num 7))))) (Op2 "^" (Var "g") (Op2 "&" (Var "e") (Op2 "^" (Var "f") (Var "g"))))) (Num 2730485921)) (Var "w8"));
      Assign "t2_41" (Op2 "+" (Op2 "^" (Op2 "^" (Op2 "|" (Op2 ">>" (Var "a") (Num 2)) (Op2 "<<" (Var "a") (Num 30))) (Op2 "|" (Op2 ">>" (Var "a") (Num 13)) (Op2 "<<" (Var "a") (Num 19)))) (Op2 "|" (Op2 ">>" (Var "a") (Num 22)) (Op2 "<<" (Var "a") (Num 10)))) (Op2 "|" (Op2 "&" (Var "a") (Var "b")) (Op2 "&" (Var "c") (Op2 "|" (Var "a") (Var "b")))));
      Assign "d" (Op2 "+" (Var "d") (Var "t1_41"));
      Assign "h" (Op2 "+" (Var "t1_41") (Var "t2_41"));
      Assign "w9" (Op2 "+" (Var "w9") (Op2 "+" (Op2 "+" (Op2 "^" (Op2 "^" (Op2 "|" (Op2 ">>" (Var "w7") (Num 17)) (Op2 "<<" (Var "w7") (Num 15))) (Op2 "|" (Op2 ">>" (Var "w7") (Num 19)) (Op2 "<<" (Var "w7") (Num 13)))) (Op2 ">>" (Var "w7") (Num 10))) (Var "w2")) (Op2 "^" (Op2 "^" (Op2 "|" (Op2 ">>" (Var "w10") (Num 7)) (Op2 "<<" (Var "w10") (Num 25))) (Op2 "|" (Op2 ">>" (Var "w10") (Num 18)) (Op2 "<<" (Var "w10") (Num 14)))) (Op2 ">>" (Var "w10") (Num 3)))));
      Assign "t1_42" (Op2 "+" (Op2 "+" (Op2 "+" (Op2 "+" (Var "g") (Op2 "^" (Op2 "^" (Op2 "|" (Op2 ">>" (Var "d") (Num 6)) (Op2 "<<" (Var "d") (Num 26))) (Op2 "|" (Op2 ">>" (Var "d") (Num 11)) (Op2 "<<" (Var "d") (Num 21)))) (Op2 "|" (Op2 ">>" (Var "d") (Num 25)) (Op2 "<<" (Var "d") (Num 7))))) (Op2 "^" (Var "f") (Op2 "&" (Var "d") (Op2 "^" (Var "e") (Var "f"))))) (Num 2820302411)) (Var "w9"));
      Assign "t2_42" (Op2 "+" (Op2 "^" (Op2 "^" (Op2 "|" (Op2 ">>" (Var "h") (Num 2)) (Op2 "<<" (Var "h") (Num 30))) (Op2 "|" (Op2 ">>" (Var "h") (Num 13)) (Op2 "<<" (Var "h") (Num 19)))) (Op2 "|" (Op2 ">>" (Var "h") (Num 22)) (Op2 "<<" (Var "h") (Num 10)))) (Op2 "|" (Op2 "&" (Var "h") (Var "a")) (Op2 "&" (Var "b") (Op2 "|" (Var "h") (Var "a")))));
      Assign "c" (Op2 "+" (Var "c") (Var "t1_42"));
      Assign "g" (Op2 "+" (Var "t1_42") (Var "t2_42"));
      Assign "w10" (Op2 "+" (Var "w10") (Op2 "+" (Op2 "+" (Op2 "^" (Op2 "^" (Op2 "|" (Op2 ">>" (Var "w8") (Num 17)) (Op2 "<<" (Var "w8") (Num 15))) (Op2 "|" (Op2 ">>" (Var "w8") (Num 19)) (Op2 "<<" (Var "w8") (Num 13)))) (Op2 ">>" (Var "w8") (Num 10))) (Var "w3")) (Op2 "^" (Op2 "^" (Op2 "|" (Op2 ">>" (Var "w11") (Num 7)) (Op2 "<<" (Var "w11") (Num 25))) (Op2 "|" (Op2 ">>" (Var "w11") (Num 18)) (Op2 "<<" (Var "w11") (Num 14)))) (Op2 ">>" (Var "w11") (Num 3)))));
      Assign "t1_43" (Op2 "+" (Op2 "+" (Op2 "+" (Op2 "+" (Var "f") (Op2 "^" (Op2 "^" (Op2 "|" (Op2 ">>" (Var "c") (Num 6)) (Op2 "<<" (Var "c") (Num 26))) (Op2 "|" (Op2 ">>" (Var "c") (Num 11)) (Op2 "<<" (Var "c") (Num 21)))) (Op2 "|" (Op2 ">>" (Var "c") (Num 25)) (Op2 "<<" (Var "c") (Num 7))))) (Op2 "^" (Var "e") (Op2 "&" (Var "c") (Op2 "^" (Var "d") (Var "e"))))) (Num 3259730800)) (Var "w10"));
      Assign "t2_43" (Op2 "+" (Op2 "^" (Op2 "^" (Op2 "|" (Op2 ">>" (Var "g") (Num 2)) (Op2 "<<" (Var "g") (Num 30))) (Op2 "|" (Op2 ">>" (Var "g") (Num 13)) (Op2 "<<" (Var "g") (Num 19)))) (Op2 "|" (Op2 ">>" (Var "g") (Num 22)) (Op2 "<<" (Var "g") (Num 10)))) (Op2 "|" (Op2 "&" (Var "g") (Var "h")) (Op2 "&" (Var "a") (Op2 "|" (Var "g") (Var "h")))));
      Assign "b" (Op2 "+" (Var "b") (Var "t1_43"));
      Assign "f" (Op2 "+" (Var "t1_43") (Var "t2_43"));
      Assign "w11" (Op2 "+" (Var "w11") (Op2 "+" (Op2 "+" (Op2 "^" (Op2 "^" (Op2 "|" (Op2 ">>" (Var "w9") (Num 17)) (Op2 "<<" (Var "w9") (Num 15))) (Op2 "|" (Op2 ">>" (Var "w9") (Num 19)) (Op2 "<<" (Var "w9") (Num 13)))) (Op2 ">>" (Var "w9") (Num 10))) (Var "w4")) (Op2 "^" (Op2 "^" (Op2 "|" (Op2 ">>" (Var "w12") (Num 7)) (Op2 "<<" (Var "w12") (Num 25))) (Op2 "|" (Op2 ">>" (Var "w12") (Num 18)) (Op2 "<<" (Var "w12") (Num 14)))) (Op2 ">>" (Var "w12") (Num 3)))));
      Assign "t1_44" (Op2 "+" (Op2 "+" (Op2 "+" (Op2 "+" (Var "e") (Op2 "^" (Op2 "^" (Op2 "|" (Op2 ">>" (Var "b") (Num 6)) (Op2 "<<" (Var "b") (Num 26))) (Op2 "|" (Op2 ">>" (Var "b") (Num 11)) (Op2 "<<" (Var "b") (Num 21)))) (Op2 "|" (Op2 ">>" (Var "b") (Num 25)) (Op2 "<<" (Var "b") (Num 7))))) (Op2 "^" (Var "d") (Op2 "&" (Var "b") (Op2 "^" (Var "c") (Var "d"))))) (Num 3345764771)) (Var "w11"));
      Assign "t2_44" (Op2 "+" (Op2 "^" (Op2 "^" (Op2 "|" (Op2 ">>" (Var "f") (Num 2)) (Op2 "<<" (Var "f") (Num 30))) (Op2 "|" (Op2 ">>" (Var "f") (Num 13)) (Op2 "<<" (Var "f") (Num 19)))) (Op2 "|" (Op2 ">>" (Var "f") (Num 22)) (Op2 "<<" (Var "f") (Num 10)))) (Op2 "|" (Op2 "&" (Var "f") (Var "g")) (Op2 "&" (Var "h") (Op2 "|" (Var "f") (Var "g")))));
      Assign "a" (Op2 "+" (Var "a") (Var "t1_44"));
      Assign "e" (Op2 "+" (Var "t1_44") (Var "t2_44"));
      Assign "w12" (Op2 "+" (Var "w12") (Op2 "+" (Op2 "+" (Op2 "^" (Op2 "^" (Op2 "|" (Op2 ">>" (Var "w10") (Num 17)) (Op2 "<<" (Var "w10") (Num 15))) (Op2 "|" (Op2 ">>" (Var "w10") (Num 19)) (Op2 "<<" (Var "w10") (Num 13)))) (Op2 ">>" (Var "w10") (Num 10))) (Var "w5")) (Op2 "^" (Op2 "^" (Op2 "|" (Op2 ">>" (Var "w13") (Num 7)) (Op2 "<<" (Var "w13") (Num 25))) (Op2 "|" (Op2 ">>" (Var "w13") (Num 18)) (Op2 "<<" (Var "w13") (Num 14)))) (Op2 ">>" (Var "w13") (Num 3)))));
      Assign "t1_45" (Op2 "+" (Op2 "+" (Op2 "+" (Op2 "+" (Var "d") (Op2 "^" (Op2 "^" (Op2 "|" (Op2 ">>" (Var "a") (Num 6)) (Op2 "<<" (Var "a") (Num 26))) (Op2 "|" (Op2 ">>" (Var "a") (Num 11)) (Op2 "<<" (Var "a") (Num 21)))) (Op2 "|" (Op2 ">>" (Var "a") (Num 25)) (Op2 "<<" (Var "a") (Num 7))))) (Op2 "^" (Var "c") (Op2 "&" (Var "a") (Op2 "^" (Var "b") (Var "c"))))) (Num 3516065817)) (Var "w12"));
      Assign "t2_45" (Op2 "+" (Op2 "^" (Op2 "^" (Op2 "|" (Op2 ">>" (Var "e") (Num 2)) (Op2 "<<" (Var "e") (Num 30))) (Op2 "|" (Op2 ">>" (Var "e") (Num 13)) (Op2 "<<" (Var "e") (Num 19)))) (Op2 "|" (Op2 ">>" (Var "e") (Num 22)) (Op2 "<<" (Var "e") (Num 10)))) (Op2 "|" (Op2 "&" (Var "e") (Var "f")) (Op2 "&" (Var "g") (Op2 "|" (Var "e") (Var "f")))));
      Assign "h" (Op2 "+" (Var "h") (Var "t1_45"));
      Assign "d" (Op2 "+" (Var "t1_45") (Var "t2_45"));
      Assign "w13" (Op2 "+" (Var "w13") (Op2 "+" (Op2 "+" (Op2 "^" (Op2 "^" (Op2 "|" (Op2 ">>" (Var "w11") (Num 17)) (Op2 "<<" (Var "w11") (Num 15))) (Op2 "|" (Op2 ">>" (Var "w11") (Num 19)) (Op2 "<<" (Var "w11") (Num 13)))) (Op2 ">>" (Var "w11") (Num 10))) (Var "w6")) (Op2 "^" (Op2 "^" (Op2 "|" (Op2 ">>" (Var "w14") (Num 7)) (Op2 "<<" (Var "w14") (Num 25))) (Op2 "|" (Op2 ">>" (Var "w14") (Num 18)) (Op2 "<<" (Var "w14") (Num 14)))) (Op2 ">>" (Var "w14") (Num 3)))));
      Assign "t1_46" (Op2 "+" (Op2 "+" (Op2 "+" (Op2 "+" (Var "c") (Op2 "^" (Op2 "^" (Op2 "|" (Op2 ">>" (Var "h") (Num 6)) (Op2 "<<" (Var "h") (Num 26))) (Op2 "|" (Op2 ">>" (Var "h") (Num 11)) (Op2 "<<" (Var "h") (Num 21)))) (Op2 "|" (Op2 ">>" (Var "h") (Num 25)) (Op2 "<<" (Var "h") (Num 7))))) (Op2 "^" (Var "b") (Op2 "&" (Var "h") (Op2 "^" (Var "a") (Var "b"))))) (Num 3600352804)) (Var "w13"));
      Assign "t2_46" (Op2 "+" (Op2 "^" (Op2 "^" (Op2 "|" (Op2 ">>" (Var "d") (Num 2)) (Op2 "<<" (Var "d") (Num 30))) (Op2 "|" (Op2 ">>" (Var "d") (Num 13)) (Op2 "<<" (Var "d") (Num 19)))) (Op2 "|" (Op2 ">>" (Var "d") (Num 22)) (Op2 "<<" (Var "d") (Num 10)))) (Op2 "|" (Op2 "&" (Var "d") (Var "e")) (Op2 "&" (Var "f") (Op2 "|" (Var "d") (Var "e")))));
      Assign "g" (Op2 "+" (Var "g") (Var "t1_46"));
      Assign "c" (Op2 "+" (Var "t1_46") (Var "t2_46"));
      Assign "w14" (Op2 "+" (Var "w14") (Op2 "+" (Op2 "+" (Op2 "^" (Op2 "^" (Op2 "|" (Op2 ">>" (Var "w12") (Num 17)) (Op2 "<<" (Var "w12") (Num 15))) (Op2 "|" (Op2 ">>" (Var "w12") (Num 19)) (Op2 "<<" (Var "w12") (Num 13)))) (Op2 ">>" (Var "w12") (Num 10))) (Var "w7")) (Op2 "^" (Op2 "^" (Op2 "|" (Op2 ">>" (Var "w15") (Num 7)) (Op2 "<<" (Var "w15") (Num 25))) (Op2 "|" (Op2 ">>" (Var "w15") (Num 18)) (Op2 "<<" (Var "w15") (Num 14)))) (Op2 ">>" (Var "w15") (Num 3)))));
      Assign "t1_47" (Op2 "+" (Op2 "+" (Op2 "+" (Op2 "+" (Var "b") (Op2 "^" (Op2 "^" (Op2 "|" (Op2 ">>" (Var "g") (Num 6)) (Op2 "<<" (Var "g") (Num 26))) (Op2 "|" (Op2 ">>" (Var "g") (Num 11)) (Op2 "<<" (Var "g") (Num 21)))) (Op2 "|" (Op2 ">>" (Var "g") (Num 25)) (Op2 "<<" (Var "g") (Num 7))))) (Op2 "^" (Var "a") (Op2 "&" (Var "g") (Op2 "^" (Var "h") (Var "a"))))) (Num 4094571909)) (Var "w14"));
      Assign "t2_47" (Op2 "+" (Op2 "^" (Op2 "^" (Op2 "|" (Op2 ">>" (Var "c") (Num 2)) (Op2 "<<" (Var "c") (Num 30))) (Op2 "|" (Op2 ">>" (Var "c") (Num 13)) (Op2 "<<" (Var "c") (Num 19)))) (Op2 "|" (Op2 ">>" (Var "c") (Num 22)) (Op2 "<<" (Var "c") (Num 10)))) (Op2 "|" (Op2 "&" (Var "c") (Var "d")) (Op2 "&" (Var "e") (Op2 "|" (Var "c") (Var "d")))));
      Assign "f" (Op2 "+" (Var "f") (Var "t1_47"));
      Assign "b" (Op2 "+" (Var "t1_47") (Var "t2_47"));
      Assign "w15" (Op2 "+" (Var "w15") (Op2 "+" (Op2 "+" (Op2 "^" (Op2 "^" (Op2 "|" (Op2 ">>" (Var "w13") (Num 17)) (Op2 "<<" (Var "w13") (Num 15))) (Op2 "|" (Op2 ">>" (Var "w13") (Num 19)) (Op2 "<<" (Var "w13") (Num 13)))) (Op2 ">>" (Var "w13") (Num 10))) (Var "w8")) (Op2 "^" (Op2 "^" (Op2 "|" (Op2 ">>" (Var "w0") (Num 7)) (Op2 "<<" (Var "w0") (Num 25))) (Op2 "|" (Op2 ">>" (Var "w0") (Num 18)) (Op2 "<<" (Var "w0") (Num 14)))) (Op2 ">>" (Var "w0") (Num 3)))));
      Assign "t1_48" (Op2 "+" (Op2 "+" (Op2 "+" (Op2 "+" (Var "a") (Op2 "^" (Op2 "^" (Op2 "|" (Op2 ">>" (Var "f") (Num 6)) (Op2 "<<" (Var "f") (Num 26))) (Op2 "|" (Op2 ">>" (Var "f") (Num 11)) (Op2 "<<" (Var "f") (Num 21)))) (Op2 "|" (Op2 ">>" (Var "f") (Num 25)) (Op2 "<<" (Var "f") (Num 7))))) (Op2 "^" (Var "h") (Op2 "&" (Var "f") (Op2 "^" (Var "g") (Var "h"))))) (Num 275423344)) (Var "w15"));
      Assign "t2_48" (Op2 "+" (Op2 "^" (Op2 "^" (Op2 "|" (Op2 ">>" (Var "b") (Num 2)) (Op2 "<<" (Var "b") (Num 30))) (Op2 "|" (Op2 ">>" (Var "b") (Num 13)) (Op2 "<<" (Var "b") (Num 19)))) (Op2 "|" (Op2 ">>" (Var "b") (Num 22)) (Op2 "<<" (Var "b") (Num 10)))) (Op2 "|" (Op2 "&" (Var "b") (Var "c")) (Op2 "&" (Var "d") (Op2 "|" (Var "b") (Var "c")))));
      Assign "e" (Op2 "+" (Var "e") (Var "t1_48"));
      Assign "a" (Op2 "+" (Var "t1_48") (Var "t2_48"));
      Assign "w0" (Op2 "+" (Var "w0") (Op2 "+" (Op2 "+" (Op2 "^" (Op2 "^" (Op2 "|" (Op2 ">>" (Var "w14") (Num 17)) (Op2 "<<" (Var "w14") (Num 15))) (Op2 "|" (Op2 ">>" (Var "w14") (Num 19)) (Op2 "<<" (Var "w14") (Num 13)))) (Op2 ">>" (Var "w14") (Num 10))) (Var "w9")) (Op2 "^" (Op2 "^" (Op2 "|" (Op2 ">>" (Var "w1") (Num 7)) (Op2 "<<" (Var "w1") (Num 25))) (Op2 "|" (Op2 ">>" (Var "w1") (Num 18)) (Op2 "<<" (Var "w1") (Num 14)))) (Op2 ">>" (Var "w1") (Num 3)))));
      Assign "t1_49" (Op2 "+" (Op2 "+" (Op2 "+" (Op2 "+" (Var "h") (Op2 "^" (Op2 "^" (Op2 "|" (Op2 ">>" (Var "e") (Num 6)) (Op2 "<<" (Var "e") (Num 26))) (Op2 "|" (Op2 ">>" (Var "e") (Num 11)) (Op2 "<<" (Var "e") (Num 21)))) (Op2 "|" (Op2 ">>" (Var "e") (Num 25)) (Op2 "<<" (Var "e") (Num 7))))) (Op2 "^" (Var "g") (Op2 "&" (Var "e") (Op2 "^" (Var "f") (Var "g"))))) (Num 430227734)) (Var "w0"));
      Assign "t2_49" (Op2 "+" (Op2 "^" (Op2 "^" (Op2 "|" (Op2 ">>" (Var "a") (Num 2)) (Op2 "<<" (Var "a") (Num 30))) (Op2 "|" (Op2 ">>" (Var "a") (Num 13)) (Op2 "<<" (Var "a") (Num 19)))) (Op2 "|" (Op2 ">>" (Var "a") (Num 22)) (Op2 "<<" (Var "a") (Num 10)))) (Op2 "|" (Op2 "&" (Var "a") (Var "b")) (Op2 "&" (Var "c") (Op2 "|" (Var "a") (Var "b")))));
      Assign "d" (Op2 "+" (Var "d") (Var "t1_49"));
      Assign "h" (Op2 "+" (Var "t1_49") (Var "t2_49"));
      Assign "w1" (Op2 "+" (Var "w1") (Op2 "+" (Op2 "+" (Op2 "^" (Op2 "^" (Op2 "|" (Op2 ">>" (Var "w15") (Num 17)) (Op2 "<<" (Var "w15") (Num 15))) (Op2 "|" (Op2 ">>" (Var "w15") (Num 19)) (Op2 "<<" (Var "w15") (Num 13)))) (Op2 ">>" (Var "w15") (Num 10))) (Var "w10")) (Op2 "^" (Op2 "^" (Op2 "|" (Op2 ">>" (Var "w2") (Num 7)) (Op2 "<<" (Var "w2") (Num 25))) (Op2 "|" (Op2 ">>" (Var "w2") (Num 18)) (Op2 "<<" (Var "w2") (Num 14)))) (Op2 ">>" (Var "w2") (Num 3)))));
      Assign "t1_50" (Op2 "+" (Op2 "+" (Op2 "+" (Op2 "+" (Var "g") (Op2 "^" (Op2 "^" (Op2 "|" (Op2 ">>" (Var "d") (Num 6)) (Op2 "<<" (Var "d") (Num 26))) (Op2 "|" (Op2 ">>" (Var "d") (Num 11)) (Op2 "<<" (Var "d") (Num 21)))) (Op2 "|" (Op2 ">>" (Var "d") (Num 25)) (Op2 "<<" (Var "d") (Num 7))))) (Op2 "^" (Var "f") (Op2 "&" (Var "d") (Op2 "^" (Var "e") (Var "f"))))) (Num 506948616)) (Var "w1"));
      Assign "t2_50" (Op2 "+" (Op2 "^" (Op2 "^" (Op2 "|" (Op2 ">>" (Var "h") (Num 2)) (Op2 "<<" (Var "h") (Num 30))) (Op2 "|" (Op2 ">>" (Var "h") (Num 13)) (Op2 "<<" (Var "h") (Num 19)))) (Op2 "|" (Op2 ">>" (Var "h") (Num 22)) (Op2 "<<" (Var "h") (Num 10)))) (Op2 "|" (Op2 "&" (Var "h") (Var "a")) (Op2 "&" (Var "b") (Op2 "|" (Var "h") (Var "a")))));
      Assign "c" (Op2 "+" (Var "c") (Var "t1_50"));
      Assign "g" (Op2 "+" (Var "t1_50") (Var "t2_50"));
      Assign "w2" (Op2 "+" (Var "w2") (Op2 "+" (Op2 "+" (Op2 "^" (Op2 "^" (Op2 "|" (Op2 ">>" (Var "w0") (Num 17)) (Op2 "<<" (Var "w0") (Num 15))) (Op2 "|" (Op2 ">>" (Var "w0") (Num 19)) (Op2 "<<" (Var "w0") (Num 13)))) (Op2 ">>" (Var "w0") (Num 10))) (Var "w11")) (Op2 "^" (Op2 "^" (Op2 "|" (Op2 ">>" (Var "w3") (Num 7)) (Op2 "<<" (Var "w3") (Num 25))) (Op2 "|" (Op2 ">>" (Var "w3") (Num 18)) (Op2 "<<" (Var "w3") (Num 14)))) (Op2 ">>" (Var "w3") (Num 3)))));
      Assign "t1_51" (Op2 "+" (Op2 "+" (Op2 "+" (Op2 "+" (Var "f") (Op2 "^" (Op2 "^" (Op2 "|" (Op2 ">>" (Var "c") (Num 6)) (Op2 "<<" (Var "c") (Num 26))) (Op2 "|" (Op2 ">>" (Var "c") (Num 11)) (Op2 "<<" (Var "c") (Num 21)))) (Op2 "|" (Op2 ">>" (Var "c") (Num 25)) (Op2 "<<" (Var "c") (Num 7))))) (Op2 "^" (Var "e") (Op2 "&" (Var "c") (Op2 "^" (Var "d") (Var "e"))))) (Num 659060556)) (Var "w2"));
      Assign "t2_51" (Op2 "+" (Op2 "^" (Op2 "^" (Op2 "|" (Op2 ">>" (Var "g") (Num 2)) (Op2 "<<" (Var "g") (Num 30))) (Op2 "|" (Op2 ">>" (Var "g") (Num 13)) (Op2 "<<" (Var "g") (Num 19)))) (Op2 "|" (Op2 ">>" (Var "g") (Num 22)) (Op2 "<<" (Var "g") (Num 10)))) (Op2 "|" (Op2 "&" (Var "g") (Var "h")) (Op2 "&" (Var "a") (Op2 "|" (Var "g") (Var "h")))));
      Assign "b" (Op2 "+" (Var "b") (Var "t1_51"));
      Assign "f" (Op2 "+" (Var "t1_51") (Var "t2_51"));
      Assign "w3" (Op2 "+" (Var "w3") (Op2 "+" (Op2 "+" (Op2 "^" (Op2 "^" (Op2 "|" (Op2 ">>" (Var "w1") (Num 17)) (Op2 "<<" (Var "w1") (Num 15))) (Op2 "|" (Op2 ">>" (Var "w1") (Num 19)) (Op2 "<<" (Var "w1") (Num 13)))) (Op2 ">>" (Var "w1") (Num 10))) (Var "w12")) (Op2 "^" (Op2 "^" (Op2 "|" (Op2 ">>" (Var "w4") (Num 7)) (Op2 "<<" (Var "w4") (Num 25))) (Op2 "|" (Op2 ">>" (Var "w4") (Num 18)) (Op2 "<<" (Var "w4") (Num 14)))) (Op2 ">>" (Var "w4") (Num 3)))));
      Assign "t1_52" (Op2 "+" (Op2 "+" (Op2 "+" (Op2 "+" (Var "e") (Op2 "^" (Op2 "^" (Op2 "|" (Op2 ">>" (Var "b") (Num 6)) (Op2 "<<" (Var "b") (Num 26))) (Op2 "|" (Op2 ">>" (Var "b") (Num 11)) (Op2 "<<" (Var "b") (Num 21)))) (Op2 "|" (Op2 ">>" (Var "b") (Num 25)) (Op2 "<<" (Var "b") (Num 7))))) (Op2 "^" (Var "d") (Op2 "&" (Var "b") (Op2 "^" (Var "c") (Var "d"))))) (Num 883997877)) (Var "w3"));
      Assign "t2_52" (Op2 "+" (Op2 "^" (Op2 "^" (Op2 "|" (Op2 ">>" (Var "f") (Num 2)) (Op2 "<<" (Var "f") (Num 30))) (Op2 "|" (Op2 ">>" (Var "f") (Num 13)) (Op2 "<<" (Var "f") (Num 19)))) (Op2 "|" (Op2 ">>" (Var "f") (Num 22)) (Op2 "<<" (Var "f") (Num 10)))) (Op2 "|" (Op2 "&" (Var "f") (Var "g")) (Op2 "&" (Var "h") (Op2 "|" (Var "f") (Var "g")))));
      Assign "a" (Op2 "+" (Var "a") (Var "t1_52"));
      Assign "e" (Op2 "+" (Var "t1_52") (Var "t2_52"));
      Assign "w4" (Op2 "+" (Var "w4") (Op2 "+" (Op2 "+" (Op2 "^" (Op2 "^" (Op2 "|" (Op2 ">>" (Var "w2") (Num 17)) (Op2 "<<" (Var "w2") (Num 15))) (Op2 "|" (Op2 ">>" (Var "w2") (Num 19)) (Op2 "<<" (Var "w2") (Num 13)))) (Op2 ">>" (Var "w2") (Num 10))) (Var "w13")) (Op2 "^" (Op2 "^" (Op2 "|" (Op2 ">>" (Var "w5") (Num 7)) (Op2 "<<" (Var "w5") (Num 25))) (Op2 "|" (Op2 ">>" (Var "w5") (Num 18)) (Op2 "<<" (Var "w5") (Num 14)))) (Op2 ">>" (Var "w5") (Num 3)))));
      Assign "t1_53" (Op2 "+" (Op2 "+" (Op2 "+" (Op2 "+" (Var "d") (Op2 "^" (Op2 "^" (Op2 "|" (Op2 ">>" (Var "a") (Num 6)) (Op2 "<<" (Var "a") (Num 26))) (Op2 "|" (Op2 ">>" (Var "a") (Num 11)) (Op2 "<<" (Var "a") (Num 21)))) (Op2 "|" (Op2 ">>" (Var "a") (Num 25)) (Op2 "<<" (Var "a") (Num 7))))) (Op2 "^" (Var "c") (Op2 "&" (Var "a") (Op2 "^" (Var "b") (Var "c"))))) (Num 958139571)) (Var "w4"));
      Assign "t2_53" (Op2 "+" (Op2 "^" (Op2 "^" (Op2 "|" (Op2 ">>" (Var "e") (Num 2)) (Op2 "<<" (Var "e") (Num 30))) (Op2 "|" (Op2 ">>" (Var "e") (Num 13)) (Op2 "<<" (Var "e") (Num 19)))) (Op2 "|" (Op2 ">>" (Var "e") (Num 22)) (Op2 "<<" (Var "e") (Num 10)))) (Op2 "|" (Op2 "&" (Var "e") (Var "f")) (Op2 "&" (Var "g") (Op2 "|" (Var "e") (Var "f")))));
      Assign "h" (Op2 "+" (Var "h") (Var "t1_53"));
      Assign "d" (Op2 "+" (Var "t1_53") (Var "t2_53"));
      Assign "w5" (Op2 "+" (Var "w5") (Op2 "+" (Op2 "+" (Op2 "^" (Op2 "^" (Op2 "|" (Op2 ">>" (Var "w3") (Num 17)) (Op2 "<<" (Var "w3") (Num 15))) (Op2 "|" (Op2 ">>" (Var "w3") (Num 19)) (Op2 "<<" (Var "w3") (Num 13)))) (Op2 ">>" (Var "w3") (Num 10))) (Var "w14")) (Op2 "^" (Op2 "^" (Op2 "|" (Op2 ">>" (Var "w6") (Num 7)) (Op2 "<<" (Var "w6") (Num 25))) (Op2 "|" (Op2 ">>" (Var "w6") (Num 18)) (Op2 "<<" (Var "w6") (Num 14)))) (Op2 ">>" (Var "w6") (Num 3)))));
      Assign "t1_54" (Op2 "+" (Op2 "+" (Op2 "+" (Op2 "+" (Var "c") (Op2 "^" (Op2 "^" (Op2 "|" (Op2 ">>" (Var "h") (Num 6)) (Op2 "<<" (Var "h") (Num 26))) (Op2 "|" (Op2 ">>" (Var "h") (Num 11)) (Op2 "<<" (Var "h") (Num 21)))) (Op2 "|" (Op2 ">>" (Var "h") (Num 25)) (Op2 "<<" (Var "h") (Num 7))))) (Op2 "^" (Var "b") (Op2 "&" (Var "h") (Op2 "^" (Var "a") (Var "b"))))) (Num 1322822218)) (Var "w5"));
      Assign "t2_54" (Op2 "+" (Op2 "^" (Op2 "^" (Op2 "|" (Op2 ">>" (Var "d") (Num 2)) (Op2 "<<" (Var "d") (Num 30))) (Op2 "|" (Op2 ">>" (Var "d") (Num 13)) (Op2 "<<" (Var "d") (Num 19)))) (Op2 "|" (Op2 ">>" (Var "d") (Num 22)) (Op2 "<<" (Var "d") (Num 10)))) (Op2 "|" (Op2 "&" (Var "d") (Var "e")) (Op2 "&" (Var "f") (Op2 "|" (Var "d") (Var "e")))));
      Assign "g" (Op2 "+" (Var "g") (Var "t1_54"));
      Assign "c" (Op2 "+" (Var "t1_54") (Var "t2_54"));
      Assign "w6" (Op2 "+" (Var "w6") (Op2 "+" (Op2 "+" (Op2 "^" (Op2 "^" (Op2 "|" (Op2 ">>" (Var "w4") (Num 17)) (Op2 "<<" (Var "w4") (Num 15))) (Op2 "|" (Op2 ">>" (Var "w4") (Num 19)) (Op2 "<<" (Var "w4") (Num 13)))) (Op2 ">>" (Var "w4") (Num 10))) (Var "w15")) (Op2 "^" (Op2 "^" (Op2 "|" (Op2 ">>" (Var "w7") (Num 7)) (Op2 "<<" (Var "w7") (Num 25))) (Op2 "|" (Op2 ">>" (Var "w7") (Num 18)) (Op2 "<<" (Var "w7") (Num 14)))) (Op2 ">>" (Var "w7") (Num 3)))));
      Assign "t1_55" (Op2 "+" (Op2 "+" (Op2 "+" (Op2 "+" (Var "b") (Op2 "^" (Op2 "^" (Op2 "|" (Op2 ">>" (Var "g") (Num 6)) (Op2 "<<" (Var "g") (Num 26))) (Op2 "|" (Op2 ">>" (Var "g") (Num 11)) (Op2 "<<" (Var "g") (Num 21)))) (Op2 "|" (Op2 ">>" (Var "g") (Num 25)) (Op2 "<<" (Var "g") (Num 7))))) (Op2 "^" (Var "a") (Op2 "&" (Var "g") (Op2 "^" (Var "h") (Var "a"))))) (Num 1537002063)) (Var "w6"));
      Assign "t2_55" (Op2 "+" (Op2 "^" (Op2 "^" (Op2 "|" (Op2 ">>" (Var "c") (Num 2)) (Op2 "<<" (Var "c") (Num 30))) (Op2 "|" (Op2 ">>" (Var "c") (Num 13)) (Op2 "<<" (Var "c") (Num 19)))) (Op2 "|" (Op2 ">>" (Var "c") (Num 22)) (Op2 "<<" (Var "c") (Num 10)))) (Op2 "|" (Op2 "&" (Var "c") (Var "d")) (Op2 "&" (Var "e") (Op2 "|" (Var "c") (Var "d")))));
      Assign "f" (Op2 "+" (Var "f") (Var "t1_55"));
      Assign "b" (Op2 "+" (Var "t1_55") (Var "t2_55"));
      Assign "w7" (Op2 "+" (Var "w7") (Op2 "+" (Op2 "+" (Op2 "^" (Op2 "^" (Op2 "|" (Op2 ">>" (Var "w5") (Num 17)) (Op2 "<<" (Var "w5") (Num 15))) (Op2 "|" (Op2 ">>" (Var "w5") (Num 19)) (Op2 "<<" (Var "w5") (Num 13)))) (Op2 ">>" (Var "w5") (Num 10))) (Var "w0")) (Op2 "^" (Op2 "^" (Op2 "|" (Op2 ">>" (Var "w8") (Num 7)) (Op2 "<<" (Var "w8") (Num 25))) (Op2 "|" (Op2 ">>" (Var "w8") (Num 18)) (Op2 "<<" (Var "w8") (Num 14)))) (Op2 ">>" (Var "w8") (Num 3)))));
      Assign "t1_56" (Op2 "+" (Op2 "+" (Op2 "+" (Op2 "+" (Var "a") (Op2 "^" (Op2 "^" (Op2 "|" (Op2 ">>" (Var "f") (Num 6)) (Op2 "<<" (Var "f") (Num 26))) (Op2 "|" (Op2 ">>" (Var "f") (Num 11)) (Op2 "<<" (Var "f") (Num 21)))) (Op2 "|" (Op2 ">>" (Var "f") (Num 25)) (Op2 "<<" (Var "f") (Num 7))))) (Op2 "^" (Var "h") (Op2 "&" (Var "f") (Op2 "^" (Var "g") (Var "h"))))) (Num 1747873779)) (Var "w7"));
      Assign "t2_56" (Op2 "+" (Op2 "^" (Op2 "^" (Op2 "|" (Op2 ">>" (Var "b") (Num 2)) (Op2 "<<" (Var "b") (Num 30))) (Op2 "|" (Op2 ">>" (Var "b") (Num 13)) (Op2 "<<" (Var "b") (Num 19)))) (Op2 "|" (Op2 ">>" (Var "b") (Num 22)) (Op2 "<<" (Var "b") (Num 10)))) (Op2 "|" (Op2 "&" (Var "b") (Var "c")) (Op2 "&" (Var "d") (Op2 "|" (Var "b") (Var "c")))));
      Assign "e" (Op2 "+" (Var "e") (Var "t1_56"));
      Assign "a" (Op2 "+" (Var "t1_56") (Var "t2_56"));
      Assign "w8" (Op2 "+" (Var "w8") (Op2 "+" (Op2 "+" (Op2 "^" (Op2 "^" (Op2 "|" (Op2 ">>" (Var "w6") (Num 17)) (Op2 "<<" (Var "w6") (Num 15))) (Op2 "|" (Op2 ">>" (Var "w6") (Num 19)) (Op2 "<<" (Var "w6") (Num 13)))) (Op2 ">>" (Var "w6") (Num 10))) (Var "w1")) (Op2 "^" (Op2 "^" (Op2 "|" (Op2 ">>" (Var "w9") (Num 7)) (Op2 "<<" (Var "w9") (Num 25))) (Op2 "|" (Op2 ">>" (Var "w9") (Num 18)) (Op2 "<<" (Var "w9") (Num 14)))) (Op2 ">>" (Var "w9") (Num 3)))));
      Assign "t1_57" (Op2 "+" (Op2 "+" (Op2 "+" (Op2 "+" (Var "h") (Op2 "^" (Op2 "^" (Op2 "|" (Op2 ">>" (Var "e") (Num 6)) (Op2 "<<" (Var "e") (Num 26))) (Op2 "|" (Op2 ">>" (Var "e") (Num 11)) (Op2 "<<" (Var "e") (Num 21)))) (Op2 "|" (Op2 ">>" (Var "e") (Num 25)) (Op2 "<<" (Var "e") (Num 7))))) (Op2 "^" (Var "g") (Op2 "&" (Var "e") (Op2 "^" (Var "f") (Var "g"))))) (Num 1955562222)) (Var "w8"));
      Assign "t2_57" (Op2 "+" (Op2 "^" (Op2 "^" (Op2 "|" (Op2 ">>" (Var "a") (Num 2)) (Op2 "<<" (Var "a") (Num 30))) (Op2 "|" (Op2 ">>" (Var "a") (Num 13)) (Op2 "<<" (Var "a") (Num 19)))) (Op2 "|" (Op2 ">>" (Var "a") (Num 22)) (Op2 "<<" (Var "a") (Num 10)))) (Op2 "|" (Op2 "&" (Var "a") (Var "b")) (Op2 "&" (Var "c") (Op2 "|" (Var "a") (Var "b")))));
      Assign "d" (Op2 "+" (Var "d") (Var "t1_57"));
      Assign "h" (Op2 "+" (Var "t1_57") (Var "t2_57"));
      Assign "w9" (Op2 "+" (Var "w9") (Op2 "+" (Op2 "+" (Op2 "^" (Op2 "^" (Op2 "|" (Op2 ">>" (Var "w7") (Num 17)) (Op2 "<<" (Var "w7") (Num 15))) (Op2 "|" (Op2 ">>" (Var "w7") (Num 19)) (Op2 "<<" (Var "w7") (Num 13)))) (Op2 ">>" (Var "w7") (Num 10))) (Var "w2")) (Op2 "^" (Op2 "^" (Op2 "|" (Op2 ">>" (Var "w10") (Num 7)) (Op2 "<<" (Var "w10") (Num 25))) (Op2 "|" (Op2 ">>" (Var "w10") (Num 18)) (Op2 "<<" (Var "w10") (Num 14)))) (Op2 ">>" (Var "w10") (Num 3)))));
      Assign "t1_58" (Op2 "+" (Op2 "+" (Op2 "+" (Op2 "+" (Var "g") (Op2 "^" (Op2 "^" (Op2 "|" (Op2 ">>" (Var "d") (Num 6)) (Op2 "<<" (Var "d") (Num 26))) (Op2 "|" (Op2 ">>" (Var "d") (Num 11)) (Op2 "<<" (Var "d") (Num 21)))) (Op2 "|" (Op2 ">>" (Var "d") (Num 25)) (Op2 "<<" (Var "d") (Num 7))))) (Op2 "^" (Var "f") (Op2 "&" (Var "d") (Op2 "^" (Var "e") (Var "f"))))) (Num 2024104815)) (Var "w9"));
      Assign "t2_58" (Op2 "+" (Op2 "^" (Op2 "^" (Op2 "|" (Op2 ">>" (Var "h") (Num 2)) (Op2 "<<" (Var "h") (Num 30))) (Op2 "|" (Op2 ">>" (Var "h") (Num 13)) (Op2 "<<" (Var "h") (Num 19)))) (Op2 "|" (Op2 ">>" (Var "h") (Num 22)) (Op2 "<<" (Var "h") (Num 10)))) (Op2 "|" (Op2 "&" (Var "h") (Var "a")) (Op2 "&" (Var "b") (Op2 "|" (Var "h") (Var "a")))));
      Assign "c" (Op2 "+" (Var "c") (Var "t1_58"));
      Assign "g" (Op2 "+" (Var "t1_58") (Var "t2_58"));
      Assign "w10" (Op2 "+" (Var "w10") (Op2 "+" (Op2 "+" (Op2 "^" (Op2 "^" (Op2 "|" (Op2 ">>" (Var "w8") (Num 17)) (Op2 "<<" (Var "w8") (Num 15))) (Op2 "|" (Op2 ">>" (Var "w8") (Num 19)) (Op2 "<<" (Var "w8") (Num 13)))) (Op2 ">>" (Var "w8") (Num 10))) (Var "w3")) (Op2 "^" (Op2 "^" (Op2 "|" (Op2 ">>" (Var "w11") (Num 7)) (Op2 "<<" (Var "w11") (Num 25))) (Op2 "|" (Op2 ">>" (Var "w11") (Num 18)) (Op2 "<<" (Var "w11") (Num 14)))) (Op2 ">>" (Var "w11") (Num 3)))));
      Assign "t1_59" (Op2 "+" (Op2 "+" (Op2 "+" (Op2 "+" (Var "f") (Op2 "^" (Op2 "^" (Op2 "|" (Op2 ">>" (Var "c") (Num 6)) (Op2 "<<" (Var "c") (Num 26))) (Op2 "|" (Op2 ">>" (Var "c") (Num 11)) (Op2 "<<" (Var "c") (Num 21)))) (Op2 "|" (Op2 ">>" (Var "c") (Num 25)) (Op2 "<<" (Var "c") (Num 7))))) (Op2 "^" (Var "e") (Op2 "&" (Var "c") (Op2 "^" (Var "d") (Var "e"))))) (Num 2227730452)) (Var "w10"));
      Assign "t2_59" (Op2 "+" (Op2 "^" (Op2 "^" (Op2 "|" (Op2 ">>" (Var "g") (Num 2)) (Op2 "<<" (Var "g") (Num 30))) (Op2 "|" (Op2 ">>" (Var "g") (Num 13)) (Op2 "<<" (Var "g") (Num 19)))) (Op2 "|" (Op2 ">>" (Var "g") (Num 22)) (Op2 "<<" (Var "g") (Num 10)))) (Op2 "|" (Op2 "&" (Var "g") (Var "h")) (Op2 "&" (Var "a") (Op2 "|" (Var "g") (Var "h")))));
      Assign "b" (Op2 "+" (Var "b") (Var "t1_59"));
      Assign "f" (Op2 "+" (Var "t1_59") (Var "t2_59"));
      Assign "w11" (Op2 "+" (Var "w11") (Op2 "+" (Op2 "+" (Op2 "^" (Op2 "^" (Op2 "|" (Op2 ">>" (Var "w9") (Num 17)) (Op2 "<<" (Var "w9") (Num 15))) (Op2 "|" (Op2 ">>" (Var "w9") (Num 19)) (Op2 "<<" (Var "w9") (Num 13)))) (Op2 ">>" (Var "w9") (Num 10))) (Var "w4")) (Op2 "^" (Op2 "^" (Op2 "|" (Op2 ">>" (Var "w12") (Num 7)) (Op2 "<<" (Var "w12") (Num 25))) (Op2 "|" (Op2 ">>" (Var "w12") (Num 18)) (Op2 "<<" (Var "w12") (Num 14)))) (Op2 ">>" (Var "w12") (Num 3)))));
      Assign "t1_60" (Op2 "+" (Op2 "+" (Op2 "+" (Op2 "+" (Var "e") (Op2 "^" (Op2 "^" (Op2 "|" (Op2 ">>" (Var "b") (Num 6)) (Op2 "<<" (Var "b") (Num 26))) (Op2 "|" (Op2 ">>" (Var "b") (Num 11)) (Op2 "<<" (Var "b") (Num 21)))) (Op2 "|" (Op2 ">>" (Var "b") (Num 25)) (Op2 "<<" (Var "b") (Num 7))))) (Op2 "^" (Var "d") (Op2 "&" (Var "b") (Op2 "^" (Var "c") (Var "d"))))) (Num 2361852424)) (Var "w11"));
      Assign "t2_60" (Op2 "+" (Op2 "^" (Op2 "^" (Op2 "|" (Op2 ">>" (Var "f") (Num 2)) (Op2 "<<" (Var "f") (Num 30))) (Op2 "|" (Op2 ">>" (Var "f") (Num 13)) (Op2 "<<" (Var "f") (Num 19)))) (Op2 "|" (Op2 ">>" (Var "f") (Num 22)) (Op2 "<<" (Var "f") (Num 10)))) (Op2 "|" (Op2 "&" (Var "f") (Var "g")) (Op2 "&" (Var "h") (Op2 "|" (Var "f") (Var "g")))));
      Assign "a" (Op2 "+" (Var "a") (Var "t1_60"));
      Assign "e" (Op2 "+" (Var "t1_60") (Var "t2_60"));
      Assign "w12" (Op2 "+" (Var "w12") (Op2 "+" (Op2 "+" (Op2 "^" (Op2 "^" (Op2 "|" (Op2 ">>" (Var "w10") (Num 17)) (Op2 "<<" (Var "w10") (Num 15))) (Op2 "|" (Op2 ">>" (Var "w10") (Num 19)) (Op2 "<<" (Var "w10") (Num 13)))) (Op2 ">>" (Var "w10") (Num 10))) (Var "w5")) (Op2 "^" (Op2 "^" (Op2 "|" (Op2 ">>" (Var "w13") (Num 7)) (Op2 "<<" (Var "w13") (Num 25))) (Op2 "|" (Op2 ">>" (Var "w13") (Num 18)) (Op2 "<<" (Var "w13") (Num 14)))) (Op2 ">>" (Var "w13") (Num 3)))));
      Assign "t1_61" (Op2 "+" (Op2 "+" (Op2 "+" (Op2 "+" (Var "d") (Op2 "^" (Op2 "^" (Op2 "|" (Op2 ">>" (Var "a") (Num 6)) (Op2 "<<" (Var "a") (Num 26))) (Op2 "|" (Op2 ">>" (Var "a") (Num 11)) (Op2 "<<" (Var "a") (Num 21)))) (Op2 "|" (Op2 ">>" (Var "a") (Num 25)) (Op2 "<<" (Var "a") (Num 7))))) (Op2 "^" (Var "c") (Op2 "&" (Var "a") (Op2 "^" (Var "b") (Var "c"))))) (Num 2428436474)) (Var "w12"));
      Assign "t2_61" (Op2 "+" (Op2 "^" (Op2 "^" (Op2 "|" (Op2 ">>" (Var "e") (Num 2)) (Op2 "<<" (Var "e") (Num 30))) (Op2 "|" (Op2 ">>" (Var "e") (Num 13)) (Op2 "<<" (Var "e") (Num 19)))) (Op2 "|" (Op2 ">>" (Var "e") (Num 22)) (Op2 "<<" (Var "e") (Num 10)))) (Op2 "|" (Op2 "&" (Var "e") (Var "f")) (Op2 "&" (Var "g") (Op2 "|" (Var "e") (Var "f")))));
      Assign "h" (Op2 "+" (Var "h") (Var "t1_61"));
      Assign "d" (Op2 "+" (Var "t1_61") (Var "t2_61"));
      Assign "w13" (Op2 "+" (Var "w13") (Op2 "+" (Op2 "+" (Op2 "^" (Op2 "^" (Op2 "|" (Op2 ">>" (Var "w11") (Num 17)) (Op2 "<<" (Var "w11") (Num 15))) (Op2 "|" (Op2 ">>" (Var "w11") (Num 19)) (Op2 "<<" (Var "w11") (Num 13)))) (Op2 ">>" (Var "w11") (Num 10))) (Var "w6")) (Op2 "^" (Op2 "^" (Op2 "|" (Op2 ">>" (Var "w14") (Num 7)) (Op2 "<<" (Var "w14") (Num 25))) (Op2 "|" (Op2 ">>" (Var "w14") (Num 18)) (Op2 "<<" (Var "w14") (Num 14)))) (Op2 ">>" (Var "w14") (Num 3)))));
      Assign "t1_62" (Op2 "+" (Op2 "+" (Op2 "+" (Op2 "+" (Var "c") (Op2 "^" (Op2 "^" (Op2 "|" (Op2 ">>" (Var "h") (Num 6)) (Op2 "<<" (Var "h") (Num 26))) (Op2 "|" (Op2 ">>" (Var "h") (Num 11)) (Op2 "<<" (Var "h") (Num 21)))) (Op2 "|" (Op2 ">>" (Var "h") (Num 25)) (Op2 "<<" (Var "h") (Num 7))))) (Op2 "^" (Var "b") (Op2 "&" (Var "h") (Op2 "^" (Var "a") (Var "b"))))) (Num 2756734187)) (Var "w13"));
      Assign "t2_62" (Op2 "+" (Op2 "^" (Op2 "^" (Op2 "|" (Op2 ">>" (Var "d") (Num 2)) (Op2 "<<" (Var "d") (Num 30))) (Op2 "|" (Op2 ">>" (Var "d") (Num 13)) (Op2 "<<" (Var "d") (Num 19)))) (Op2 "|" (Op2 ">>" (Var "d") (Num 22)) (Op2 "<<" (Var "d") (Num 10)))) (Op2 "|" (Op2 "&" (Var "d") (Var "e")) (Op2 "&" (Var "f") (Op2 "|" (Var "d") (Var "e")))));
      Assign "g" (Op2 "+" (Var "g") (Var "t1_62"));
      Assign "c" (Op2 "+" (Var "t1_62") (Var "t2_62"));
      Assign "t1_63" (Op2 "+" (Op2 "+" (Op2 "+" (Op2 "+" (Var "b") (Op2 "^" (Op2 "^" (Op2 "|" (Op2 ">>" (Var "g") (Num 6)) (Op2 "<<" (Var "g") (Num 26))) (Op2 "|" (Op2 ">>" (Var "g") (Num 11)) (Op2 "<<" (Var "g") (Num 21)))) (Op2 "|" (Op2 ">>" (Var "g") (Num 25)) (Op2 "<<" (Var "g") (Num 7))))) (Op2 "^" (Var "a") (Op2 "&" (Var "g") (Op2 "^" (Var "h") (Var "a"))))) (Num 3204031479)) (Op2 "+" (Op2 "+" (Op2 "+" (Var "w14") (Op2 "^" (Op2 "^" (Op2 "|" (Op2 ">>" (Var "w12") (Num 17)) (Op2 "<<" (Var "w12") (Num 15))) (Op2 "|" (Op2 ">>" (Var "w12") (Num 19)) (Op2 "<<" (Var "w12") (Num 13)))) (Op2 ">>" (Var "w12") (Num 10)))) (Var "w7")) (Op2 "^" (Op2 "^" (Op2 "|" (Op2 ">>" (Var "w15") (Num 7)) (Op2 "<<" (Var "w15") (Num 25))) (Op2 "|" (Op2 ">>" (Var "w15") (Num 18)) (Op2 "<<" (Var "w15") (Num 14)))) (Op2 ">>" (Var "w15") (Num 3)))));
      Assign "t2_63" (Op2 "+" (Op2 "^" (Op2 "^" (Op2 "|" (Op2 ">>" (Var "c") (Num 2)) (Op2 "<<" (Var "c") (Num 30))) (Op2 "|" (Op2 ">>" (Var "c") (Num 13)) (Op2 "<<" (Var "c") (Num 19)))) (Op2 "|" (Op2 ">>" (Var "c") (Num 22)) (Op2 "<<" (Var "c") (Num 10)))) (Op2 "|" (Op2 "&" (Var "c") (Var "d")) (Op2 "&" (Var "e") (Op2 "|" (Var "c") (Var "d")))));
      Assign "f" (Op2 "+" (Var "f") (Var "t1_63"));
      Assign "b" (Op2 "+" (Var "t1_63") (Var "t2_63"));
      Assign "t1_64" (Op2 "+" (Op2 "+" (Op2 "+" (Op2 "+" (Var "a") (Op2 "^" (Op2 "^" (Op2 "|" (Op2 ">>" (Var "f") (Num 6)) (Op2 "<<" (Var "f") (Num 26))) (Op2 "|" (Op2 ">>" (Var "f") (Num 11)) (Op2 "<<" (Var "f") (Num 21)))) (Op2 "|" (Op2 ">>" (Var "f") (Num 25)) (Op2 "<<" (Var "f") (Num 7))))) (Op2 "^" (Var "h") (Op2 "&" (Var "f") (Op2 "^" (Var "g") (Var "h"))))) (Num 3329325298)) (Op2 "+" (Op2 "+" (Op2 "+" (Var "w15") (Op2 "^" (Op2 "^" (Op2 "|" (Op2 ">>" (Var "w13") (Num 17)) (Op2 "<<" (Var "w13") (Num 15))) (Op2 "|" (Op2 ">>" (Var "w13") (Num 19)) (Op2 "<<" (Var "w13") (Num 13)))) (Op2 ">>" (Var "w13") (Num 10)))) (Var "w8")) (Op2 "^" (Op2 "^" (Op2 "|" (Op2 ">>" (Var "w0") (Num 7)) (Op2 "<<" (Var "w0") (Num 25))) (Op2 "|" (Op2 ">>" (Var "w0") (Num 18)) (Op2 "<<" (Var "w0") (Num 14)))) (Op2 ">>" (Var "w0") (Num 3)))));
      Assign "t2_64" (Op2 "+" (Op2 "^" (Op2 "^" (Op2 "|" (Op2 ">>" (Var "b") (Num 2)) (Op2 "<<" (Var "b") (Num 30))) (Op2 "|" (Op2 ">>" (Var "b") (Num 13)) (Op2 "<<" (Var "b") (Num 19)))) (Op2 "|" (Op2 ">>" (Var "b") (Num 22)) (Op2 "<<" (Var "b") (Num 10)))) (Op2 "|" (Op2 "&" (Var "b") (Var "c")) (Op2 "&" (Var "d") (Op2 "|" (Var "b") (Var "c")))));
      Assign "e" (Op2 "+" (Var "e") (Var "t1_64"));
      Assign "a" (Op2 "+" (Var "t1_64") (Var "t2_64"));
      Store Pub (Op2 "[]" (Var "s") (Num 0)) (Op2 "+" (Load Pub (Op2 "[]" (Var "s") (Num 0))) (Var "a"));
      Store Pub (Op2 "[]" (Var "s") (Num 1)) (Op2 "+" (Load Pub (Op2 "[]" (Var "s") (Num 1))) (Var "b"));
      Store Pub (Op2 "[]" (Var "s") (Num 2)) (Op2 "+" (Load Pub (Op2 "[]" (Var "s") (Num 2))) (Var "c"));
      Store Pub (Op2 "[]" (Var "s") (Num 3)) (Op2 "+" (Load Pub (Op2 "[]" (Var "s") (Num 3))) (Var "d"));
      Store Pub (Op2 "[]" (Var "s") (Num 4)) (Op2 "+" (Load Pub (Op2 "[]" (Var "s") (Num 4))) (Var "e"));
      Store Pub (Op2 "[]" (Var "s") (Num 5)) (Op2 "+" (Load Pub (Op2 "[]" (Var "s") (Num 5))) (Var "f"));
      Store Pub (Op2 "[]" (Var "s") (Num 6)) (Op2 "+" (Load Pub (Op2 "[]" (Var "s") (Num 6))) (Var "g"));
      Store Pub (Op2 "[]" (Var "s") (Num 7)) (Op2 "+" (Load Pub (Op2 "[]" (Var "s") (Num 7))) (Var "h"))]).
(** src/hash_impl.h:126-143 secp256k1_sha256_write@PP *)
Definition c64_sha256_write__PP : func := mkfunc "secp256k1_sha256_write@PP" [("hash", false); ("data", false); ("len", false)] false
  (seq [Assign "bufsize" (Op2 "&" (Load Pub (Op1 ".bytes" (Var "hash"))) (Num 63));
      Store Pub (Op1 ".bytes" (Var "hash")) (Op2 "+" (Load Pub (Op1 ".bytes" (Var "hash"))) (Var "len"));
      Loop (If (Op2 ">=" (Var "len") (Op2 "-" (Num 64) (Var "bufsize"))) (seq [Assign "chunk_len" (Op2 "-" (Num 64) (Var "bufsize"));
      PubPrim "_" "memcpy" [Op2 "+" (Op1 ".buf" (Var "hash")) (Var "bufsize"); Var "data"; Var "chunk_len"];
      Assign "data" (Op2 "+" (Var "data") (Var "chunk_len"));
      Assign "len" (Op2 "-" (Var "len") (Var "chunk_len"));
      Call "_" "secp256k1_sha256_transform@PP" [Op1 ".s" (Var "hash"); Op1 ".buf" (Var "hash")];
      Assign "bufsize" (Num 0)]) (Break));
      If (Var "len") (PubPrim "_" "memcpy" [Op2 "+" (Op1 ".buf" (Var "hash")) (Var "bufsize"); Var "data"; Var "len"]) (Skip)]).
(** src/field_5x52_impl.h:271-304 secp256k1_fe_impl_get_b32@SP *)
Definition c64_fe_impl_get_b32__SP : func := mkfunc "secp256k1_fe_impl_get_b32@SP" [("r", false); ("a", false)] false
  (seq [Store Sec (Op2 "[]" (Var "r") (Num 0)) (Op2 "&" (Op2 ">>" (Load Pub (Op2 "[]" (Op1 ".n" (Var "a")) (Num 4))) (Num 40)) (Num 255));
      Store Sec (Op2 "[]" (Var "r") (Num 1)) (Op2 "&" (Op2 ">>" (Load Pub (Op2 "[]" (Op1 ".n" (Var "a")) (Num 4))) (Num 32)) (Num 255));
      Store Sec (Op2 "[]" (Var "r") (Num 2)) (Op2 "&" (Op2 ">>" (Load Pub (Op2 "[]" (Op1 ".n" (Var "a")) (Num 4))) (Num 24)) (Num 255));
      Store Sec (Op2 "[]" (Var "r") (Num 3)) (Op2 "&" (Op2 ">>" (Load Pub (Op2 "[]" (Op1 ".n" (Var "a")) (Num 4))) (Num 16)) (Num 255));
      Store Sec (Op2 "[]" (Var "r") (Num 4)) (Op2 "&" (Op2 ">>" (Load Pub (Op2 "[]" (Op1 ".n" (Var "a")) (Num 4))) (Num 8)) (Num 255));
      Store Sec (Op2 "[]" (Var "r") (Num 5)) (Op2 "&" (Load Pub (Op2 "[]" (Op1 ".n" (Var "a")) (Num 4))) (Num 255));
      Store Sec (Op2 "[]" (Var "r") (Num 6)) (Op2 "&" (Op2 ">>" (Load Pub (Op2 "[]" (Op1 ".n" (Var "a")) (Num 3))) (Num 44)) (Num 255));
      Store Sec (Op2 "[]" (Var "r") (Num 7)) (Op2 "&" (Op2 ">>" (Load Pub (Op2 "[]" (Op1 ".n" (Var "a")) (Num 3))) (Num 36)) (Num 255));
      Store Sec (Op2 "[]" (Var "r") (Num 8)) (Op2 "&" (Op2 ">>" (Load Pub (Op2 "[]" (Op1 ".n" (Var "a")) (Num 3))) (Num 28)) (Num 255));
      Store Sec (Op2 "[]" (Var "r") (Num 9)) (Op2 "&" (Op2 ">>" (Load Pub (Op2 "[]" (Op1 ".n" (Var "a")) (Num 3))) (Num 20)) (Num 255));
      Store Sec (Op2 "[]" (Var "r") (Num 10)) (Op2 "&" (Op2 ">>" (Load Pub (Op2 "[]" (Op1 ".n" (Var "a")) (Num 3))) (Num 12)) (Num 255));
      Store Sec (Op2 "[]" (Var "r") (Num 11)) (Op2 "&" (Op2 ">>" (Load Pub (Op2 "[]" (Op1 ".n" (Var "a")) (Num 3))) (Num 4)) (Num 255));
      Store Sec (Op2 "[]" (Var "r") (Num 12)) (Op2 "|" (Op2 "&" (Op2 ">>" (Load Pub (Op2 "[]" (Op1 ".n" (Var "a")) (Num 2))) (Num 48)) (Num 15)) (Op2 "<<" (Op2 "&" (Load Pub (Op2 "[]" (Op1 ".n" (Var "a")) (Num 3))) (Num 15)) (Num 4)));
      Store Sec (Op2 "[]" (Var "r") (Num 13)) (Op2 "&" (Op2 ">>" (Load Pub (Op2 "[]" (Op1 ".n" (Var "a")) (Num 2))) (Num 40)) (Num 255));
      Store Sec (Op2 "[]" (Var "r") (Num 14)) (Op2 "&" (Op2 ">>" (Load Pub (Op2 "[]" (Op1 ".n" (Var "a")) (Num 2))) (Num 32)) (Num 255));
      Store Sec (Op2 "[]" (Var "r") (Num 15)) (Op2 "&" (Op2 ">>" (Load Pub (Op2 "[]" (Op1 ".n" (Var "a")) (Num 2))) (Num 24)) (Num 255));
      Store Sec (Op2 "[]" (Var "r") (Num 16)) (Op2 "&" (Op2 ">>" (Load Pub (Op2 "[]" (Op1 ".n" (Var "a")) (Num 2))) (Num 16)) (Num 255));
      Store Sec (Op2 "[]" (Var "r") (Num 17)) (Op2 "&" (Op2 ">>" (Load Pub (Op2 "[]" (Op1 ".n" (Var "a")) (Num 2))) (Num 8)) (Num 255));
      Store Sec (Op2 "[]" (Var "r") (Num 18)) (Op2 "&" (Load Pub (Op2 "[]" (Op1 ".n" (Var "a")) (Num 2))) (Num 255));
      Store Sec (Op2 "[]" (Var "r") (Num 19)) (Op2 "&" (Op2 ">>" (Load Pub (Op2 "[]" (Op1 ".n" (Var "a")) (Num 1))) (Num 44)) (Num 255));
      Store Sec (Op2 "[]" (Var "r") (Num 20)) (Op2 "&" (Op2 ">>" (Load Pub (Op2 "[]" (Op1 ".n" (Var "a")) (Num 1))) (Num 36)) (Num 255));
      Store Sec (Op2 "[]" (Var "r") (Num 21)) (Op2 "&" (Op2 ">>" (Load Pub (Op2 "[]" (Op1 ".n" (Var "a")) (Num 1))) (Num 28)) (Num 255));
      Store Sec (Op2 "[]" (Var "r") (Num 22)) (Op2 "&" (Op2 ">>" (Load Pub (Op2 "[]" (Op1 ".n" (Var "a")) (Num 1))) (Num 20)) (Num 255));
      Store Sec (Op2 "[]" (Var "r") (Num 23)) (Op2 "&" (Op2 ">>" (Load Pub (Op2 "[]" (Op1 ".n" (Var "a")) (Num 1))) (Num 12)) (Num 255));
      Store Sec (Op2 "[]" (Var "r") (Num 24)) (Op2 "&" (Op2 ">>" (Load Pub (Op2 "[]" (Op1 ".n" (Var "a")) (Num 1))) (Num 4)) (Num 255));
      Store Sec (Op2 "[]" (Var "r") (Num 25)) (Op2 "|" (Op2 "&" (Op2 ">>" (Load Pub (Op2 "[]" (Op1 ".n" (Var "a")) (Num 0))) (Num 48)) (Num 15)) (Op2 "<<" (Op2 "&" (Load Pub (Op2 "[]" (Op1 ".n" (Var "a")) (Num 1))) (Num 15)) (Num 4)));
      Store Sec (Op2 "[]" (Var "r") (Num 26)) (Op2 "&" (Op2 ">>" (Load Pub (Op2 "[]" (Op1 ".n" (Var "a")) (Num 0))) (Num 40)) (Num 255));
      Store Sec (Op2 "[]" (Var "r") (Num 27)) (Op2 "&" (Op2 ">>" (Load Pub (Op2 "[]" (Op1 ".n" (Var "a")) (Num 0))) (Num 32)) (Num 255));
      Store Sec (Op2 "[]" (Var "r") (Num 28)) (Op2 "&" (Op2 ">>" (Load Pub (Op2 "[]" (Op1 ".n" (Var "a")) (Num 0))) (Num 24)) (Num 255));
      Store Sec (Op2 "[]" (Var "r") (Num 29)) (Op2 "&" (Op2 ">>" (Load Pub (Op2 "[]" (Op1 ".n" (Var "a")) (Num 0))) (Num 16)) (Num 255));
      Store Sec (Op2 "[]" (Var "r") (Num 30)) (Op2 "&" (Op2 ">>" (Load Pub (Op2 "[]" (Op1 ".n" (Var "a")) (Num 0))) (Num 8)) (Num 255));
      Store Sec (Op2 "[]" (Var "r") (Num 31)) (Op2 "&" (Load Pub (Op2 "[]" (Op1 ".n" (Var "a")) (Num 0))) (Num 255))]).
(** src/modules/ellswift/main_impl.h:450-487 secp256k1_ellswift_create *)
Definition c64_ellswift_create : func := mkfunc "secp256k1_ellswift_create" [("ctx", false); ("ell64", false); ("seckey32", false); ("auxrnd32", false)] true
  (seq [If (Op1 "!" (Op2 "!=" (Var "ell64") (Num 0))) (seq [Prim "callback" [];
      Return (Num 0)]) (Skip);
      Prim "memset" [Var "ell64"; Num 0; Num 64];
      Call "t1" "secp256k1_ecmult_gen_context_is_built" [Op1 ".ecmult_gen_ctx" (Var "ctx")];
      If (Op1 "!" (Var "t1")) (seq [Prim "callback" [];
      Return (Num 0)]) (Skip);
      If (Op1 "!" (Op2 "!=" (Var "seckey32") (Num 0))) (seq [Prim "callback" [];
      Return (Num 0)]) (Skip);
      Call "t2" "secp256k1_ec_pubkey_create_helper" [Op1 ".ecmult_gen_ctx" (Var "ctx"); Addr "seckey_scalar"; Addr "p"; Var "seckey32"];
      Assign "ret" (Var "t2");
      Expose "secp256k1_ellswift_create: &p" (Addr "p") (Op0 "sizeof ( p )");
      Call "_" "secp256k1_fe_impl_normalize_var@P" [Op1 ".x" (Addr "p")];
      Call "_" "secp256k1_fe_impl_normalize_var@P" [Op1 ".y" (Addr "p")];
      Call "_" "secp256k1_ellswift_sha256_init_create" [Addr "hash"];
      Call "_" "secp256k1_sha256_write" [Addr "hash"; Var "seckey32"; Num 32];
      Call "_" "secp256k1_sha256_write@SP" [Addr "hash"; Op0 "secp256k1_ellswift_create.zero32"; Op0 "sizeof ( zero32 )"];
      Expose "secp256k1_ellswift_create: &hash" (Addr "hash") (Op0 "sizeof ( hash )");
      If (Var "auxrnd32") (Call "_" "secp256k1_sha256_write@PP" [Addr "hash"; Var "auxrnd32"; Num 32]) (Skip);
      PubPrim "_" "secp256k1_ellswift_elligatorswift_var" [Var "ell64"; Addr "t"; Addr "p"; Addr "hash"];
      Call "_" "secp256k1_fe_impl_get_b32@SP" [Op2 "+" (Var "ell64") (Num 32); Addr "t"];
      Prim "classify" [Var "ell64"; Num 64];
      Call "_" "secp256k1_memczero" [Var "ell64"; Num 64; Op1 "!" (Var "ret")];
      Call "_" "secp256k1_scalar_clear" [Addr "seckey_scalar"];
      Return (Var "ret")]).
(** src/field_5x52_impl.h:228-263 secp256k1_fe_impl_set_b32_mod@PP *)
Definition c64_fe_impl_set_b32_mod__PP : func := mkfunc "secp256k1_fe_impl_set_b32_mod@PP" [("r", false); ("a", false)] false
  (seq [Store Pub (Op2 "[]" (Op1 ".n" (Var "r")) (Num 0)) (Op2 "|" (Op2 "|" (Op2 "|" (Op2 "|" (Op2 "|" (Op2 "|" (Op1 "(uint64_t)" (Load Pub (Op2 "[]" (Var "a") (Num 31)))) (Op2 "<<" (Op1 "(uint64_t)" (Load Pub (Op2 "[]" (Var "a") (Num 30)))) (Num 8))) (Op2 "<<" (Op1 "(uint64_t)" (Load Pub (Op2 "[]" (Var "a") (Num 29)))) (Num 16))) (Op2 "<<" (Op1 "(uint64_t)" (Load Pub (Op2 "[]" (Var "a") (Num 28)))) (Num 24))) (Op2 "<<" (Op1 "(uint64_t)" (Load Pub (Op2 "[]" (Var "a") (Num 27)))) (Num 32))) (Op2 "<<" (Op1 "(uint64_t)" (Load Pub (Op2 "[]" (Var "a") (Num 26)))) (Num 40))) (Op2 "<<" (Op1 "(uint64_t)" (Op2 "&" (Load Pub (Op2 "[]" (Var "a") (Num 25))) (Num 15))) (Num 48)));
      Store Pub (Op2 "[]" (Op1 ".n" (Var "r")) (Num 1)) (Op2 "|" (Op2 "|" (Op2 "|" (Op2 "|" (Op2 "|" (Op2 "|" (Op1 "(uint64_t)" (Op2 "&" (Op2 ">>" (Load Pub (Op2 "[]" (Var "a") (Num 25))) (Num 4)) (Num 15))) (Op2 "<<" (Op1 "(uint64_t)" (Load Pub (Op2 "[]" (Var "a") (Num 24)))) (Num 4))) (Op2 "<<" (Op1 "(uint64_t)" (Load Pub (Op2 "[]" (Var "a") (Num 23)))) (Num 12))) (Op2 "<<" (Op1 "(uint64_t)" (Load Pub (Op2 "[]" (Var "a") (Num 22)))) (Num 20))) (Op2 "<<" (Op1 "(uint64_t)" (Load Pub (Op2 "[]" (Var "a") (Num 21)))) (Num 28))) (Op2 "<<" (Op1 "(uint64_t)" (Load Pub (Op2 "[]" (Var "a") (Num 20)))) (Num 36))) (Op2 "<<" (Op1 "(uint64_t)" (Load Pub (Op2 "[]" (Var "a") (Num 19)))) (Num 44)));
      Store Pub (Op2 "[]" (Op1 ".n" (Var "r")) (Num 2)) (Op2 "|" (Op2 "|" (Op2 "|" (Op2 "|" (Op2 "|" (Op2 "|" (Op1 "(uint64_t)" (Load Pub (Op2 "[]" (Var "a") (Num 18)))) (Op2 "<<" (Op1 "(uint64_t)" (Load Pub (Op2 "[]" (Var "a") (Num 17)))) (Num 8))) (Op2 "<<" (Op1 "(uint64_t)" (Load Pub (Op2 "[]" (Var "a") (Num 16)))) (Num 16))) (Op2 "<<" (Op1 "(uint64_t)" (Load Pub (Op2 "[]" (Var "a") (Num 15)))) (Num 24))) (Op2 "<<" (Op1 "(uint64_t)" (Load Pub (Op2 "[]" (Var "a") (Num 14)))) (Num 32))) (Op2 "<<" (Op1 "(uint64_t)" (Load Pub (Op2 "[]" (Var "a") (Num 13)))) (Num 40))) (Op2 "<<" (Op1 "(uint64_t)" (Op2 "&" (Load Pub (Op2 "[]" (Var "a") (Num 12))) (Num 15))) (Num 48)));
      Store Pub (Op2 "[]" (Op1 ".n" (Var "r")) (Num 3)) (Op2 "|" (Op2 "|" (Op2 "|" (Op2 "|" (Op2 "|" (Op2 "|" (Op1 "(uint64_t)" (Op2 "&" (Op2 ">>" (Load Pub (Op2 "[]" (Var "a") (Num 12))) (Num 4)) (Num 15))) (Op2 "<<" (Op1 "(uint64_t)" (Load Pub (Op2 "[]" (Var "a") (Num 11)))) (Num 4))) (Op2 "<<" (Op1 "(uint64_t)" (Load Pub (Op2 "[]" (Var "a") (Num 10)))) (Num 12))) (Op2 "<<" (Op1 "(uint64_t)" (Load Pub (Op2 "[]" (Var "a") (Num 9)))) (Num 20))) (Op2 "<<" (Op1 "(uint64_t)" (Load Pub (Op2 "[]" (Var "a") (Num 8)))) (Num 28))) (Op2 "<<" (Op1 "(uint64_t)" (Load Pub (Op2 "[]" (Var "a") (Num 7)))) (Num 36))) (Op2 "<<" (Op1 "(uint64_t)" (Load Pub (Op2 "[]" (Var "a") (Num 6)))) (Num 44)));
      Store Pub (Op2 "[]" (Op1 ".n" (Var "r")) (Num 4)) (Op2 "|" (Op2 "|" (Op2 "|" (Op2 "|" (Op2 "|" (Op1 "(uint64_t)" (Load Pub (Op2 "[]" (Var "a") (Num 5)))) (Op2 "<<" (Op1 "(uint64_t)" (Load Pub (Op2 "[]" (Var "a") (Num 4)))) (Num 8))) (Op2 "<<" (Op1 "(uint64_t)" (Load Pub (Op2 "[]" (Var "a") (Num 3)))) (Num 16))) (Op2 "<<" (Op1 "(uint64_t)" (Load Pub (Op2 "[]" (Var "a") (Num 2)))) (Num 24))) (Op2 "<<" (Op1 "(uint64_t)" (Load Pub (Op2 "[]" (Var "a") (Num 1)))) (Num 32))) (Op2 "<<" (Op1 "(uint64_t)" (Load Pub (Op2 "[]" (Var "a") (Num 0)))) (Num 40)))]).
(** src/field_5x52_impl.h:329-331 secp256k1_fe_impl_add_int@P *)
Definition c64_fe_impl_add_int__P : func := mkfunc "secp256k1_fe_impl_add_int@P" [("r", false); ("a", false)] false
  (Store Pub (Op2 "[]" (Op1 ".n" (Var "r")) (Num 0)) (Op2 "+" (Load Pub (Op2 "[]" (Op1 ".n" (Var "r")) (Num 0))) (Var "a"))).
(** src/ecmult_const_impl.h:270-397 secp256k1_ecmult_const_xonly@SPPS *)
Definition c64_ecmult_const_xonly__SPPS : func := mkfunc "secp256k1_ecmult_const_xonly@SPPS" [("r", false); ("n", false); ("d", false); ("q", false); ("known_on_curve", false)] false
  (seq [Call "_" "secp256k1_fe_impl_sqr@PP" [Addr "g"; Var "n"];
      Call "_" "secp256k1_fe_impl_mul@PPP" [Addr "g"; Addr "g"; Var "n"];
      If (Var "d") (seq [Call "_" "secp256k1_fe_impl_sqr@PP" [Addr "b"; Var "d"];
      Call "_" "secp256k1_fe_impl_mul_int_unchecked@P" [Addr "b"; Num 7];
      Call "_" "secp256k1_fe_impl_mul@PPP" [Addr "b"; Addr "b"; Var "d"];
      Call "_" "secp256k1_fe_impl_add@PP" [Addr "g"; Addr "b"];
      If (Op1 "!" (Var "known_on_curve")) (seq [Call "_" "secp256k1_fe_impl_mul@PPP" [Addr "c"; Addr "g"; Var "d"];
      PubPrim "t1" "secp256k1_fe_impl_is_square_var" [Addr "c"];
      If (Op1 "!" (Var "t1")) (Return (Num 0)) (Skip)]) (Skip)]) (seq [Call "_" "secp256k1_fe_impl_add_int@P" [Addr "g"; Num 7];
      If (Op1 "!" (Var "known_on_curve")) (seq [PubPrim "t2" "secp256k1_fe_impl_is_square_var" [Addr "g"];
      If (Op1 "!" (Var "t2")) (Return (Num 0)) (Skip)]) (Skip)]);
      Call "_" "secp256k1_fe_impl_mul@PPP" [Op1 ".x" (Addr "p"); Addr "g"; Var "n"];
      Call "_" "secp256k1_fe_impl_sqr@PP" [Op1 ".y" (Addr "p"); Addr "g"];
      Store Pub (Op1 ".infinity" (Addr "p")) (Num 0);
      Call "_" "secp256k1_ecmult_const@SPS" [Addr "rj"; Addr "p"; Var "q"];
      Call "_" "secp256k1_fe_impl_sqr" [Addr "i"; Op1 ".z" (Addr "rj")];
      Call "_" "secp256k1_fe_impl_mul@SSP" [Addr "i"; Addr "i"; Addr "g"];
      If (Var "d") (Call "_" "secp256k1_fe_impl_mul@SSP" [Addr "i"; Addr "i"; Var "d"]) (Skip);
      Call "_" "secp256k1_fe_impl_inv" [Addr "i"; Addr "i"];
      Call "_" "secp256k1_fe_impl_mul" [Var "r"; Op1 ".x" (Addr "rj"); Addr "i"];
      Return (Num 1)]).
(** src/modules/ellswift/main_impl.h:519-531 secp256k1_ellswift_sha256_init_bip324 *)
Definition c64_ellswift_sha256_init_bip324 : func := mkfunc "secp256k1_ellswift_sha256_init_bip324" [("hash", false)] false
  (seq [Call "_" "secp256k1_sha256_initialize" [Var "hash"];
      Store Sec (Op2 "[]" (Op1 ".s" (Var "hash")) (Num 0)) (Num 2350044976);
      Store Sec (Op2 "[]" (Op1 ".s" (Var "hash")) (Num 1)) (Num 2189153170);
      Store Sec (Op2 "[]" (Op1 ".s" (Var "hash")) (Num 2)) (Num 2656023278);
      Store Sec (Op2 "[]" (Op1 ".s" (Var "hash")) (Num 3)) (Num 544945982);
      Store Sec (Op2 "[]" (Op1 ".s" (Var "hash")) (Num 4)) (Num 580042106);
      Store Sec (Op2 "[]" (Op1 ".s" (Var "hash")) (Num 5)) (Num 2857648572);
      Store Sec (Op2 "[]" (Op1 ".s" (Var "hash")) (Num 6)) (Num 365131679);
      Store Sec (Op2 "[]" (Op1 ".s" (Var "hash")) (Num 7)) (Num 3484755273);
      Store Pub (Op1 ".bytes" (Var "hash")) (Num 64)]).
(** src/modules/ellswift/main_impl.h:533-546 ellswift_xdh_hash_function_bip324@SSPPS *)
Definition c64_ellswift_xdh_hash_function_bip324__SSPPS : func := mkfunc "ellswift_xdh_hash_function_bip324@SSPPS" [("output", false); ("x32", false); ("ell_a64", false); ("ell_b64", false); ("data", false)] false
  (seq [Call "_" "secp256k1_ellswift_sha256_init_bip324" [Addr "sha"];
      Call "_" "secp256k1_sha256_write@SP" [Addr "sha"; Var "ell_a64"; Num 64];
      Call "_" "secp256k1_sha256_write@SP" [Addr "sha"; Var "ell_b64"; Num 64];
      Call "_" "secp256k1_sha256_write" [Addr "sha"; Var "x32"; Num 32];
      Call "_" "secp256k1_sha256_finalize" [Addr "sha"; Var "output"];
      Call "_" "secp256k1_sha256_clear" [Addr "sha"];
      Return (Num 1)]).
(** src/modules/ellswift/main_impl.h:551-590 secp256k1_ellswift_xdh *)
Definition c64_ellswift_xdh : func := mkfunc "secp256k1_ellswift_xdh" [("ctx", false); ("output", false); ("ell_a64", false); ("ell_b64", false); ("seckey32", false); ("party", false); ("hashfp", false); ("data", false)] true
  (seq [Assign "ret" (Num 0);
      If (Op1 "!" (Op2 "!=" (Var "output") (Num 0))) (seq [Prim "callback" [];
      Return (Num 0)]) (Skip);
      If (Op1 "!" (Op2 "!=" (Var "ell_a64") (Num 0))) (seq [Prim "callback" [];
      Return (Num 0)]) (Skip);
      If (Op1 "!" (Op2 "!=" (Var "ell_b64") (Num 0))) (seq [Prim "callback" [];
      Return (Num 0)]) (Skip);
      If (Op1 "!" (Op2 "!=" (Var "seckey32") (Num 0))) (seq [Prim "callback" [];
      Return (Num 0)]) (Skip);
      If (Op1 "!" (Op2 "!=" (Var "hashfp") (Num 0))) (seq [Prim "callback" [];
      Return (Num 0)]) (Skip);
      If (Var "party") (Assign "t1" (Var "ell_a64")) (Assign "t1" (Var "ell_b64"));
      Assign "theirs64" (Var "t1");
      Call "_" "secp256k1_fe_impl_set_b32_mod@PP" [Addr "u"; Var "theirs64"];
      Call "_" "secp256k1_fe_impl_set_b32_mod@PP" [Addr "t"; Op2 "+" (Var "theirs64") (Num 32)];
      PubPrim "_" "secp256k1_ellswift_xswiftec_frac_var" [Addr "xn"; Addr "xd"; Addr "u"; Addr "t"];
      Call "_" "secp256k1_scalar_set_b32" [Addr "s"; Var "seckey32"; Addr "overflow"];
      Call "t2" "secp256k1_scalar_is_zero" [Addr "s"];
      Store Sec (Addr "overflow") (Var "t2");
      Call "_" "secp256k1_scalar_cmov@SP" [Addr "s"; Op0 "secp256k1_scalar_one"; Load Sec (Addr "overflow")];
      Call "_" "secp256k1_ecmult_const_xonly@SPPS" [Addr "px"; Addr "xn"; Addr "xd"; Addr "s"; Num 1];
      Call "_" "secp256k1_fe_impl_normalize" [Addr "px"];
      Call "_" "secp256k1_fe_impl_get_b32" [Addr "sx"; Addr "px"];
      Call "t3" "ellswift_xdh_hash_function_bip324@SSPPS" [Var "output"; Addr "sx"; Var "ell_a64"; Var "ell_b64"; Var "data"];
      Assign "ret" (Var "t3");
      Prim "secp256k1_memclear" [Addr "sx"; Op0 "sizeof ( sx )"];
      Call "_" "secp256k1_fe_clear" [Addr "px"];
      Call "_" "secp256k1_scalar_clear" [Addr "s"];
      Return (Op2 "&" (Op1 "!" (Op1 "!" (Var "ret"))) (Op1 "!" (Load Sec (Addr "overflow"))))]).
(** src/modules/schnorrsig/main_impl.h:32-44 secp256k1_nonce_function_bip340_sha256_tagged_aux *)
Definition c64_nonce_function_bip340_sha256_tagged_aux : func := mkfunc "secp256k1_nonce_function_bip340_sha256_tagged_aux" [("sha", false)] false
  (seq [Call "_" "secp256k1_sha256_initialize" [Var "sha"];
      Store Sec (Op2 "[]" (Op1 ".s" (Var "sha")) (Num 0)) (Num 618476057);
      Store Sec (Op2 "[]" (Op1 ".s" (Var "sha")) (Num 1)) (Num 1320844912);
      Store Sec (Op2 "[]" (Op1 ".s" (Var "sha")) (Num 2)) (Num 3390024633);
      Store Sec (Op2 "[]" (Op1 ".s" (Var "sha")) (Num 3)) (Num 262346349);
      Store Sec (Op2 "[]" (Op1 ".s" (Var "sha")) (Num 4)) (Num 989586609);
      Store Sec (Op2 "[]" (Op1 ".s" (Var "sha")) (Num 5)) (Num 1279582103);
      Store Sec (Op2 "[]" (Op1 ".s" (Var "sha")) (Num 6)) (Num 1252796217);
      Store Sec (Op2 "[]" (Op1 ".s" (Var "sha")) (Num 7)) (Num 614368522);
      Store Pub (Op1 ".bytes" (Var "sha")) (Num 64)]).
(** src/util.h:255-266 secp256k1_memcmp_var@PP *)
Definition c64_memcmp_var__PP : func := mkfunc "secp256k1_memcmp_var@PP" [("s1", false); ("s2", false); ("n", false)] false
  (seq [Assign "p1" (Var "s1");
      Assign "p2" (Var "s2");
      Assign "i" (Num 0);
      Loop (If (Op2 "<" (Var "i") (Var "n")) (seq [Assign "diff" (Op2 "-" (Load Pub (Op2 "[]" (Var "p1") (Var "i"))) (Load Pub (Op2 "[]" (Var "p2") (Var "i"))));
      If (Op2 "!=" (Var "diff") (Num 0)) (Return (Var "diff")) (Skip);
      Assign "i" (Op2 "+" (Var "i") (Num 1))]) (Break));
      Return (Num 0)]).
(** src/modules/schnorrsig/main_impl.h:16-28 secp256k1_nonce_function_bip340_sha256_tagged *)
Definition c64_nonce_function_bip340_sha256_tagged : func := mkfunc "secp256k1_nonce_function_bip340_sha256_tagged" [("sha", false)] false
  (seq [Call "_" "secp256k1_sha256_initialize" [Var "sha"];
      Store Sec (Op2 "[]" (Op1 ".s" (Var "sha")) (Num 0)) (Num 1180785461);
      Store Sec (Op2 "[]" (Op1 ".s" (Var "sha")) (Num 1)) (Num 4106207223);
      Store Sec (Op2 "[]" (Op1 ".s" (Var "sha")) (Num 2)) (Num 2676868721);
      Store Sec (Op2 "[]" (Op1 ".s" (Var "sha")) (Num 3)) (Num 2204269235);
      Store Sec (Op2 "[]" (Op1 ".s" (Var "sha")) (Num 4)) (Num 1612804480);
      Store Sec (Op2 "[]" (Op1 ".s" (Var "sha")) (Num 5)) (Num 1463125601);
      Store Sec (Op2 "[]" (Op1 ".s" (Var "sha")) (Num 6)) (Num 564305492);
      Store Sec (Op2 "[]" (Op1 ".s" (Var "sha")) (Num 7)) (Num 1756396364);
      Store Pub (Op1 ".bytes" (Var "sha")) (Num 64)]).
(** src/hash_impl.h:163-172 secp256k1_sha256_initialize_tagged@SP *)
Definition c64_sha256_initialize_tagged__SP : func := mkfunc "secp256k1_sha256_initialize_tagged@SP" [("hash", false); ("tag", false); ("taglen", false)] false
  (seq [Call "_" "secp256k1_sha256_initialize" [Var "hash"];
      Call "_" "secp256k1_sha256_write@SP" [Var "hash"; Var "tag"; Var "taglen"];
      Call "_" "secp256k1_sha256_finalize" [Var "hash"; Addr "buf"];
      Call "_" "secp256k1_sha256_initialize" [Var "hash"];
      Call "_" "secp256k1_sha256_write" [Var "hash"; Addr "buf"; Num 32];
      Call "_" "secp256k1_sha256_write" [Var "hash"; Addr "buf"; Num 32]]).
(** src/modules/schnorrsig/main_impl.h:52-100 nonce_function_bip340@SSSSPS *)
Definition c64_nonce_function_bip340__SSSSPS : func := mkfunc "nonce_function_bip340@SSSSPS" [("nonce32", false); ("msg", false); ("msglen", false); ("key32", false); ("xonly_pk32", false); ("algo", false); ("algolen", false); ("data", false)] false
  (seq [If (Op2 "==" (Var "algo") (Num 0)) (Return (Num 0)) (Skip);
      If (Op2 "!=" (Var "data") (Num 0)) (seq [Call "_" "secp256k1_nonce_function_bip340_sha256_tagged_aux" [Addr "sha"];
      Call "_" "secp256k1_sha256_write" [Addr "sha"; Var "data"; Num 32];
      Call "_" "secp256k1_sha256_finalize" [Addr "sha"; Addr "masked_key"];
      Assign "i" (Num 0);
      Loop (If (Op2 "<" (Var "i") (Num 32)) (seq [Store Sec (Op2 "[]" (Addr "masked_key") (Var "i")) (Op2 "^" (Load Sec (Op2 "[]" (Addr "masked_key") (Var "i"))) (Load Sec (Op2 "[]" (Var "key32") (Var "i"))));
      Assign "i" (Op2 "+" (Var "i") (Num 1))]) (Break))]) (seq [Assign "i" (Num 0);
      Loop (If (Op2 "<" (Var "i") (Num 32)) (seq [Store Sec (Op2 "[]" (Addr "masked_key") (Var "i")) (Op2 "^" (Load Sec (Op2 "[]" (Var "key32") (Var "i"))) (Load Pub (Op2 "[]" (Op0 "nonce_function_bip340.ZERO_MASK") (Var "i"))));
      Assign "i" (Op2 "+" (Var "i") (Num 1))]) (Break))]);
      If (Op2 "==" (Var "algolen") (Op0 "sizeof ( bip340_algo )")) (seq [Call "t2" "secp256k1_memcmp_var@PP" [Var "algo"; Op0 "bip340_algo"; Var "algolen"];
      Assign "t1" (Op2 "!=" (Op2 "==" (Var "t2") (Num 0)) (Num 0))]) (Assign "t1" (Num 0));
      If (Var "t1") (Call "_" "secp256k1_nonce_function_bip340_sha256_tagged" [Addr "sha"]) (Call "_" "secp256k1_sha256_initialize_tagged@SP" [Addr "sha"; Var "algo"; Var "algolen"]);
      Call "_" "secp256k1_sha256_write" [Addr "sha"; Addr "masked_key"; Num 32];
      Call "_" "secp256k1_sha256_write" [Addr "sha"; Var "xonly_pk32"; Num 32];
      Call "_" "secp256k1_sha256_write" [Addr "sha"; Var "msg"; Var "msglen"];
      Call "_" "secp256k1_sha256_finalize" [Addr "sha"; Var "nonce32"];
      Call "_" "secp256k1_sha256_clear" [Addr "sha"];
      Prim "secp256k1_memclear" [Addr "masked_key"; Op0 "sizeof ( masked_key )"];
      Return (Num 1)]).
(** src/modules/schnorrsig/main_impl.h:106-117 secp256k1_schnorrsig_sha256_tagged *)
Definition c64_schnorrsig_sha256_tagged : func := mkfunc "secp256k1_schnorrsig_sha256_tagged" [("sha", false)] false
  (seq [Call "_" "secp256k1_sha256_initialize" [Var "sha"];
      Store Sec (Op2 "[]" (Op1 ".s" (Var "sha")) (Num 0)) (Num 2632759825);
      Store Sec (Op2 "[]" (Op1 ".s" (Var "sha")) (Num 1)) (Num 596792193);
      Store Sec (Op2 "[]" (Op1 ".s" (Var "sha")) (Num 2)) (Num 292000018);
      Store Sec (Op2 "[]" (Op1 ".s" (Var "sha")) (Num 3)) (Num 3512892943);
      Store Sec (Op2 "[]" (Op1 ".s" (Var "sha")) (Num 4)) (Num 2546496848);
      Store Sec (Op2 "[]" (Op1 ".s" (Var "sha")) (Num 5)) (Num 3983205);
      Store Sec (Op2 "[]" (Op1 ".s" (Var "sha")) (Num 6)) (Num 2432045412);
      Store Sec (Op2 "[]" (Op1 ".s" (Var "sha")) (Num 7)) (Num 870954602);
      Store Pub (Op1 ".bytes" (Var "sha")) (Num 64)]).
(** src/modules/schnorrsig/main_impl.h:119-133 secp256k1_schnorrsig_challenge *)
Definition c64_schnorrsig_challenge : func := mkfunc "secp256k1_schnorrsig_challenge" [("e", false); ("r32", false); ("msg", false); ("msglen", false); ("pubkey32", false)] false
  (seq [Call "_" "secp256k1_schnorrsig_sha256_tagged" [Addr "sha"];
      Call "_" "secp256k1_sha256_write" [Addr "sha"; Var "r32"; Num 32];
      Call "_" "secp256k1_sha256_write" [Addr "sha"; Var "pubkey32"; Num 32];
      Call "_" "secp256k1_sha256_write" [Addr "sha"; Var "msg"; Var "msglen"];
      Call "_" "secp256k1_sha256_finalize" [Addr "sha"; Addr "buf"];
      Call "_" "secp256k1_scalar_set_b32" [Var "e"; Addr "buf"; Num 0]]).
(** src/modules/schnorrsig/main_impl.h:135-197 secp256k1_schnorrsig_sign_internal@SSSSPS *)
Definition c64_schnorrsig_sign_internal__SSSSPS : func := mkfunc "secp256k1_schnorrsig_sign_internal@SSSSPS" [("ctx", false); ("sig64", false); ("msg", false); ("msglen", false); ("keypair", false); ("noncefp", false); ("ndata", false)] true
  (seq [Prim "init" [Addr "buf"];
      Assign "ret" (Num 1);
      Call "t1" "secp256k1_ecmult_gen_context_is_built" [Op1 ".ecmult_gen_ctx" (Var "ctx")];
      If (Op1 "!" (Var "t1")) (seq [Prim "callback" [];
      Return (Num 0)]) (Skip);
      If (Op1 "!" (Op2 "!=" (Var "sig64") (Num 0))) (seq [Prim "callback" [];
      Return (Num 0)]) (Skip);
      If (Op2 "!=" (Var "msg") (Num 0)) (Assign "t2" (Num 1)) (Assign "t2" (Op2 "!=" (Op2 "==" (Var "msglen") (Num 0)) (Num 0)));
      If (Op1 "!" (Var "t2")) (seq [Prim "callback" [];
      Return (Num 0)]) (Skip);
      If (Op1 "!" (Op2 "!=" (Var "keypair") (Num 0))) (seq [Prim "callback" [];
      Return (Num 0)]) (Skip);
      If (Op2 "==" (Var "noncefp") (Num 0)) (Assign "noncefp" (Op0 "secp256k1_nonce_function_bip340")) (Skip);
      Call "t3" "secp256k1_keypair_load@SSPS" [Var "ctx"; Addr "sk"; Addr "pk"; Var "keypair"];
      Assign "ret" (Op2 "&" (Var "ret") (Var "t3"));
      Call "t4" "secp256k1_fe_impl_is_odd@P" [Op1 ".y" (Addr "pk")];
      If (Var "t4") (Call "_" "secp256k1_scalar_negate" [Addr "sk"; Addr "sk"]) (Skip);
      Call "_" "secp256k1_scalar_get_b32" [Addr "seckey"; Addr "sk"];
      Call "_" "secp256k1_fe_impl_get_b32@SP" [Addr "pk_buf"; Op1 ".x" (Addr "pk")];
      Call "t5" "nonce_function_bip340@SSSSPS" [Addr "buf"; Var "msg"; Var "msglen"; Addr "seckey"; Addr "pk_buf"; Op0 "bip340_algo"; Op0 "sizeof ( bip340_algo )"; Var "ndata"];
      Assign "ret" (Op2 "&" (Var "ret") (Op1 "!" (Op1 "!" (Var "t5"))));
      Call "_" "secp256k1_scalar_set_b32" [Addr "k"; Addr "buf"; Num 0];
      Call "t6" "secp256k1_scalar_is_zero" [Addr "k"];
      Assign "ret" (Op2 "&" (Var "ret") (Op1 "!" (Var "t6")));
      Call "_" "secp256k1_scalar_cmov@SP" [Addr "k"; Op0 "secp256k1_scalar_one"; Op1 "!" (Var "ret")];
      Call "_" "secp256k1_ecmult_gen" [Op1 ".ecmult_gen_ctx" (Var "ctx"); Addr "rj"; Addr "k"];
      Call "_" "secp256k1_ge_set_gej" [Addr "r"; Addr "rj"];
      Expose "secp256k1_schnorrsig_sign_internal: &r" (Addr "r") (Op0 "sizeof ( r )");
      Call "_" "secp256k1_fe_impl_normalize_var@P" [Op1 ".y" (Addr "r")];
      Call "t7" "secp256k1_fe_impl_is_odd@P" [Op1 ".y" (Addr "r")];
      If (Var "t7") (Call "_" "secp256k1_scalar_negate" [Addr "k"; Addr "k"]) (Skip);
      Call "_" "secp256k1_fe_impl_normalize_var@P" [Op1 ".x" (Addr "r")];
      Call "_" "secp256k1_fe_impl_get_b32@SP" [Op2 "[]" (Var "sig64") (Num 0); Op1 ".x" (Addr "r")];
      Call "_" "secp256k1_schnorrsig_challenge" [Addr "e"; Op2 "[]" (Var "sig64") (Num 0); Var "msg"; Var "msglen"; Addr "pk_buf"];
      Call "_" "secp256k1_scalar_mul" [Addr "e"; Addr "e"; Addr "sk"];
      Call "_" "secp256k1_scalar_add" [Addr "e"; Addr "e"; Addr "k"];
      Call "_" "secp256k1_scalar_get_b32" [Op2 "[]" (Var "sig64") (Num 32); Addr "e"];
      Call "_" "secp256k1_memczero" [Var "sig64"; Num 64; Op1 "!" (Var "ret")];
      Call "_" "secp256k1_scalar_clear" [Addr "k"];
      Call "_" "secp256k1_scalar_clear" [Addr "sk"];
      Prim "secp256k1_memclear" [Addr "seckey"; Op0 "sizeof ( seckey )"];
      Call "_" "secp256k1_gej_clear" [Addr "rj"];
      Return (Var "ret")]).
(** src/modules/schnorrsig/main_impl.h:199-202 secp256k1_schnorrsig_sign32 *)
Definition c64_schnorrsig_sign32 : func := mkfunc "secp256k1_schnorrsig_sign32" [("ctx", false); ("sig64", false); ("msg32", false); ("keypair", false); ("aux_rand32", false)] true
  (seq [Call "t1" "secp256k1_schnorrsig_sign_internal@SSSSPS" [Var "ctx"; Var "sig64"; Var "msg32"; Num 32; Var "keypair"; Op0 "secp256k1_nonce_function_bip340"; Var "aux_rand32"];
      Return (Var "t1")]).
(** src/modules/schnorrsig/main_impl.h:135-197 secp256k1_schnorrsig_sign_internal *)
Definition c64_schnorrsig_sign_internal : func := mkfunc "secp256k1_schnorrsig_sign_internal" [("ctx", false); ("sig64", false); ("msg", false); ("msglen", false); ("keypair", false); ("noncefp", false); ("ndata", false)] true
  (seq [Prim "init" [Addr "buf"];
      Assign "ret" (Num 1);
      Call "t1" "secp256k1_ecmult_gen_context_is_built" [Op1 ".ecmult_gen_ctx" (Var "ctx")];
      If (Op1 "!" (Var "t1")) (seq [Prim "callback" [];
      Return (Num 0)]) (Skip);
      If (Op1 "!" (Op2 "!=" (Var "sig64") (Num 0))) (seq [Prim "callback" [];
      Return (Num 0)]) (Skip);
      If (Op2 "!=" (Var "msg") (Num 0)) (Assign "t2" (Num 1)) (Assign "t2" (Op2 "!=" (Op2 "==" (Var "msglen") (Num 0)) (Num 0)));
      If (Op1 "!" (Var "t2")) (seq [Prim "callback" [];
      Return (Num 0)]) (Skip);
      If (Op1 "!" (Op2 "!=" (Var "keypair") (Num 0))) (seq [Prim "callback" [];
      Return (Num 0)]) (Skip);
      If (Op2 "==" (Var "noncefp") (Num 0)) (Assign "noncefp" (Op0 "secp256k1_nonce_function_bip340")) (Skip);
      Call "t3" "secp256k1_keypair_load@SSPS" [Var "ctx"; Addr "sk"; Addr "pk"; Var "keypair"];
      Assign "ret" (Op2 "&" (Var "ret") (Var "t3"));
      Call "t4" "secp256k1_fe_impl_is_odd@P" [Op1 ".y" (Addr "pk")];
      If (Var "t4") (Call "_" "secp256k1_scalar_negate" [Addr "sk"; Addr "sk"]) (Skip);
      Call "_" "secp256k1_scalar_get_b32" [Addr "seckey"; Addr "sk"];
      Call "_" "secp256k1_fe_impl_get_b32@SP" [Addr "pk_buf"; Op1 ".x" (Addr "pk")];
      Call "t5" "nonce_function_bip340@SSSSPS" [Addr "buf"; Var "msg"; Var "msglen"; Addr "seckey"; Addr "pk_buf"; Op0 "bip340_algo"; Op0 "sizeof ( bip340_algo )"; Var "ndata"];
      Assign "ret" (Op2 "&" (Var "ret") (Op1 "!" (Op1 "!" (Var "t5"))));
      Call "_" "secp256k1_scalar_set_b32" [Addr "k"; Addr "buf"; Num 0];
      Call "t6" "secp256k1_scalar_is_zero" [Addr "k"];
      Assign "ret" (Op2 "&" (Var "ret") (Op1 "!" (Var "t6")));
      Call "_" "secp256k1_scalar_cmov@SP" [Addr "k"; Op0 "secp256k1_scalar_one"; Op1 "!" (Var "ret")];
      Call "_" "secp256k1_ecmult_gen" [Op1 ".ecmult_gen_ctx" (Var "ctx"); Addr "rj"; Addr "k"];
      Call "_" "secp256k1_ge_set_gej" [Addr "r"; Addr "rj"];
      Expose "secp256k1_schnorrsig_sign_internal: &r" (Addr "r") (Op0 "sizeof ( r )");
      Call "_" "secp256k1_fe_impl_normalize_var@P" [Op1 ".y" (Addr "r")];
      Call "t7" "secp256k1_fe_impl_is_odd@P" [Op1 ".y" (Addr "r")];
      If (Var "t7") (Call "_" "secp256k1_scalar_negate" [Addr "k"; Addr "k"]) (Skip);
      Call "_" "secp256k1_fe_impl_normalize_var@P" [Op1 ".x" (Addr "r")];
      Call "_" "secp256k1_fe_impl_get_b32@SP" [Op2 "[]" (Var "sig64") (Num 0); Op1 ".x" (Addr "r")];
      Call "_" "secp256k1_schnorrsig_challenge" [Addr "e"; Op2 "[]" (Var "sig64") (Num 0); Var "msg"; Var "msglen"; Addr "pk_buf"];
      Call "_" "secp256k1_scalar_mul" [Addr "e"; Addr "e"; Addr "sk"];
      Call "_" "secp256k1_scalar_add" [Addr "e"; Addr "e"; Addr "k"];
      Call "_" "secp256k1_scalar_get_b32" [Op2 "[]" (Var "sig64") (Num 32); Addr "e"];
      Call "_" "secp256k1_memczero" [Var "sig64"; Num 64; Op1 "!" (Var "ret")];
      Call "_" "secp256k1_scalar_clear" [Addr "k"];
      Call "_" "secp256k1_scalar_clear" [Addr "sk"];
      Prim "secp256k1_memclear" [Addr "seckey"; Op0 "sizeof ( seckey )"];
      Call "_" "secp256k1_gej_clear" [Addr "rj"];
      Return (Var "ret")]).
(** src/modules/schnorrsig/main_impl.h:208-221 secp256k1_schnorrsig_sign_custom *)
Definition c64_schnorrsig_sign_custom : func := mkfunc "secp256k1_schnorrsig_sign_custom" [("ctx", false); ("sig64", false); ("msg", false); ("msglen", false); ("keypair", false); ("extraparams", false)] true
  (seq [Assign "noncefp" (Num 0);
      Assign "ndata" (Num 0);
      If (Op2 "!=" (Var "extraparams") (Num 0)) (seq [Call "t1" "secp256k1_memcmp_var@PP" [Op1 ".magic" (Var "extraparams"); Op0 "schnorrsig_extraparams_magic"; Op0 "sizeof ( extraparams -> magic )"];
      If (Op1 "!" (Op2 "==" (Var "t1") (Num 0))) (seq [Prim "callback" [];
      Return (Num 0)]) (Skip);
      Assign "noncefp" (Load Pub (Op1 ".noncefp" (Var "extraparams")));
      Assign "ndata" (Load Pub (Op1 ".ndata" (Var "extraparams")))]) (Skip);
      Call "t2" "secp256k1_schnorrsig_sign_internal" [Var "ctx"; Var "sig64"; Var "msg"; Var "msglen"; Var "keypair"; Var "noncefp"; Var "ndata"];
      Return (Var "t2")]).
(** src/util.h:270-282 secp256k1_is_zero_array *)
Definition c64_is_zero_array : func := mkfunc "secp256k1_is_zero_array" [("s", false); ("len", false)] true
  (seq [Assign "acc" (Num 0);
      Assign "i" (Num 0);
      Loop (If (Op2 "<" (Var "i") (Var "len")) (seq [Assign "acc" (Op2 "|" (Var "acc") (Load Sec (Op2 "[]" (Var "s") (Var "i"))));
      Assign "i" (Op2 "+" (Var "i") (Num 1))]) (Break));
      Assign "ret" (Op2 "==" (Var "acc") (Num 0));
      Assign "acc" (Num 0);
      Return (Var "ret")]).
(** src/modules/musig/session_impl.h:80-88 secp256k1_musig_secnonce_invalidate *)
Definition c64_musig_secnonce_invalidate : func := mkfunc "secp256k1_musig_secnonce_invalidate" [("ctx", false); ("secnonce", false); ("flag", true)] false
  (seq [Call "_" "secp256k1_memczero" [Op1 ".data" (Var "secnonce"); Op0 "sizeof ( secnonce -> data )"; Var "flag"];
      Expose "secp256k1_musig_secnonce_invalidate: secnonce->data" (Op1 ".data" (Var "secnonce")) (Op0 "sizeof ( secp256k1_musig_secnonce_magic )");
      Expose "secp256k1_musig_secnonce_invalidate: &secnonce->data[68]" (Op2 "[]" (Op1 ".data" (Var "secnonce")) (Num 68)) (Num 64)]).
(** src/group_impl.h:331-337 secp256k1_ge_set_infinity@P *)
Definition c64_ge_set_infinity__P : func := mkfunc "secp256k1_ge_set_infinity@P" [("r", false)] false
  (seq [Store Pub (Op1 ".infinity" (Var "r")) (Num 1);
      Call "_" "secp256k1_fe_impl_set_int@P" [Op1 ".x" (Var "r"); Num 0];
      Call "_" "secp256k1_fe_impl_set_int@P" [Op1 ".y" (Var "r"); Num 0]]).
(** src/group_impl.h:1003-1010 secp256k1_ge_from_bytes_ext@PP *)
Definition c64_ge_from_bytes_ext__PP : func := mkfunc "secp256k1_ge_from_bytes_ext@PP" [("ge", false); ("data", false)] false
  (seq [Call "t1" "secp256k1_memcmp_var@PP" [Var "data"; Op0 "secp256k1_ge_from_bytes_ext.zeros"; Op0 "sizeof ( zeros )"];
      If (Op2 "==" (Var "t1") (Num 0)) (Call "_" "secp256k1_ge_set_infinity@P" [Var "ge"]) (Call "_" "secp256k1_ge_from_bytes@PP" [Var "ge"; Var "data"])]).
(** src/scalar_4x64_impl.h:144-156 secp256k1_scalar_set_b32@PPS *)
Definition c64_scalar_set_b32__PPS : func := mkfunc "secp256k1_scalar_set_b32@PPS" [("r", false); ("b32", false); ("overflow", false)] false
  (seq [Call "t1" "secp256k1_read_be64@P" [Op2 "[]" (Var "b32") (Num 24)];
      Store Pub (Op2 "[]" (Op1 ".d" (Var "r")) (Num 0)) (Var "t1");
      Call "t2" "secp256k1_read_be64@P" [Op2 "[]" (Var "b32") (Num 16)];
      Store Pub (Op2 "[]" (Op1 ".d" (Var "r")) (Num 1)) (Var "t2");
      Call "t3" "secp256k1_read_be64@P" [Op2 "[]" (Var "b32") (Num 8)];
      Store Pub (Op2 "[]" (Op1 ".d" (Var "r")) (Num 2)) (Var "t3");
      Call "t4" "secp256k1_read_be64@P" [Op2 "[]" (Var "b32") (Num 0)];
      Store Pub (Op2 "[]" (Op1 ".d" (Var "r")) (Num 3)) (Var "t4");
      Call "t5" "secp256k1_scalar_check_overflow@P" [Var "r"];
      Call "t6" "secp256k1_scalar_reduce@P" [Var "r"; Var "t5"];
      Assign "over" (Var "t6");
      If (Var "overflow") (Store Sec (Var "overflow") (Var "over")) (Skip)]).
(** src/modules/musig/keyagg_impl.h:46-60 secp256k1_keyagg_cache_load@SPP *)
Definition c64_keyagg_cache_load__SPP : func := mkfunc "secp256k1_keyagg_cache_load@SPP" [("ctx", false); ("cache_i", false); ("cache", false)] false
  (seq [Assign "ptr" (Op1 ".data" (Var "cache"));
      Call "t1" "secp256k1_memcmp_var@PP" [Var "ptr"; Op0 "secp256k1_musig_keyagg_cache_magic"; Num 4];
      If (Op1 "!" (Op2 "==" (Var "t1") (Num 0))) (seq [Prim "callback" [];
      Return (Num 0)]) (Skip);
      Assign "ptr" (Op2 "+" (Var "ptr") (Num 4));
      Call "_" "secp256k1_ge_from_bytes@PP" [Op1 ".pk" (Var "cache_i"); Var "ptr"];
      Assign "ptr" (Op2 "+" (Var "ptr") (Num 64));
      Call "_" "secp256k1_ge_from_bytes_ext@PP" [Op1 ".second_pk" (Var "cache_i"); Var "ptr"];
      Assign "ptr" (Op2 "+" (Var "ptr") (Num 64));
      PubPrim "_" "memcpy" [Op1 ".pks_hash" (Var "cache_i"); Var "ptr"; Num 32];
      Assign "ptr" (Op2 "+" (Var "ptr") (Num 32));
      Store Pub (Op1 ".parity_acc" (Var "cache_i")) (Op2 "&" (Load Pub (Var "ptr")) (Num 1));
      Assign "ptr" (Op2 "+" (Var "ptr") (Num 1));
      Call "_" "secp256k1_scalar_set_b32@PPS" [Op1 ".tweak" (Var "cache_i"); Var "ptr"; Num 0];
      Return (Num 1)]).
(** src/field_5x52_impl.h:271-304 secp256k1_fe_impl_get_b32@PP *)
Definition c64_fe_impl_get_b32__PP : func := mkfunc "secp256k1_fe_impl_get_b32@PP" [("r", false); ("a", false)] false
  (seq [Store Pub (Op2 "[]" (Var "r") (Num 0)) (Op2 "&" (Op2 ">>" (Load Pub (Op2 "[]" (Op1 ".n" (Var "a")) (Num 4))) (Num 40)) (Num 255));
      Store Pub (Op2 "[]" (Var "r") (Num 1)) (Op2 "&" (Op2 ">>" (Load Pub (Op2 "[]" (Op1 ".n" (Var "a")) (Num 4))) (Num 32)) (Num 255));
      Store Pub (Op2 "[]" (Var "r") (Num 2)) (Op2 "&" (Op2 ">>" (Load Pub (Op2 "[]" (Op1 ".n" (Var "a")) (Num 4))) (Num 24)) (Num 255));
      Store Pub (Op2 "[]" (Var "r") (Num 3)) (Op2 "&" (Op2 ">>" (Load Pub (Op2 "[]" (Op1 ".n" (Var "a")) (Num 4))) (Num 16)) (Num 255));
      Store Pub (Op2 "[]" (Var "r") (Num 4)) (Op2 "&" (Op2 ">>" (Load Pub (Op2 "[]" (Op1 ".n" (Var "a")) (Num 4))) (Num 8)) (Num 255));
      Store Pub (Op2 "[]" (Var "r") (Num 5)) (Op2 "&" (Load Pub (Op2 "[]" (Op1 ".n" (Var "a")) (Num 4))) (Num 255));
      Store Pub (Op2 "[]" (Var "r") (Num 6)) (Op2 "&" (Op2 ">>" (Load Pub (Op2 "[]" (Op1 ".n" (Var "a")) (Num 3))) (Num 44)) (Num 255));
      Store Pub (Op2 "[]" (Var "r") (Num 7)) (Op2 "&" (Op2 ">>" (Load Pub (Op2 "[]" (Op1 ".n" (Var "a")) (Num 3))) (Num 36)) (Num 255));
      Store Pub (Op2 "[]" (Var "r") (Num 8)) (Op2 "&" (Op2 ">>" (Load Pub (Op2 "[]" (Op1 ".n" (Var "a")) (Num 3))) (Num 28)) (Num 255));
      Store Pub (Op2 "[]" (Var "r") (Num 9)) (Op2 "&" (Op2 ">>" (Load Pub (Op2 "[]" (Op1 ".n" (Var "a")) (Num 3))) (Num 20)) (Num 255));
      Store Pub (Op2 "[]" (Var "r") (Num 10)) (Op2 "&" (Op2 ">>" (Load Pub (Op2 "[]" (Op1 ".n" (Var "a")) (Num 3))) (Num 12)) (Num 255));
      Store Pub (Op2 "[]" (Var "r") (Num 11)) (Op2 "&" (Op2 ">>" (Load Pub (Op2 "[]" (Op1 ".n" (Var "a")) (Num 3))) (Num 4)) (Num 255));
      Store Pub (Op2 "[]" (Var "r") (Num 12)) (Op2 "|" (Op2 "&" (Op2 ">>" (Load Pub (Op2 "[]" (Op1 ".n" (Var "a")) (Num 2))) (Num 48)) (Num 15)) (Op2 "<<" (Op2 "&" (Load Pub (Op2 "[]" (Op1 ".n" (Var "a")) (Num 3))) (Num 15)) (Num 4)));
      Store Pub (Op2 "[]" (Var "r") (Num 13)) (Op2 "&" (Op2 ">>" (Load Pub (Op2 "[]" (Op1 ".n" (Var "a")) (Num 2))) (Num 40)) (Num 255));
      Store Pub (Op2 "[]" (Var "r") (Num 14)) (Op2 "&" (Op2 ">>" (Load Pub (Op2 "[]" (Op1 ".n" (Var "a")) (Num 2))) (Num 32)) (Num 255));
      Store Pub (Op2 "[]" (Var "r") (Num 15)) (Op2 "&" (Op2 ">>" (Load Pub (Op2 "[]" (Op1 ".n" (Var "a")) (Num 2))) (Num 24)) (Num 255));
      Store Pub (Op2 "[]" (Var "r") (Num 16)) (Op2 "&" (Op2 ">>" (Load Pub (Op2 "[]" (Op1 ".n" (Var "a")) (Num 2))) (Num 16)) (Num 255));
      Store Pub (Op2 "[]" (Var "r") (Num 17)) (Op2 "&" (Op2 ">>" (Load Pub (Op2 "[]" (Op1 ".n" (Var "a")) (Num 2))) (Num 8)) (Num 255));
      Store Pub (Op2 "[]" (Var "r") (Num 18)) (Op2 "&" (Load Pub (Op2 "[]" (Op1 ".n" (Var "a")) (Num 2))) (Num 255));
      Store Pub (Op2 "[]" (Var "r") (Num 19)) (Op2 "&" (Op2 ">>" (Load Pub (Op2 "[]" (Op1 ".n" (Var "a")) (Num 1))) (Num 44)) (Num 255));
      Store Pub (Op2 "[]" (Var "r") (Num 20)) (Op2 "&" (Op2 ">>" (Load Pub (Op2 "[]" (Op1 ".n" (Var "a")) (Num 1))) (Num 36)) (Num 255));
      Store Pub (Op2 "[]" (Var "r") (Num 21)) (Op2 "&" (Op2 ">>" (Load Pub (Op2 "[]" (Op1 ".n" (Var "a")) (Num 1))) (Num 28)) (Num 255));
      Store Pub (Op2 "[]" (Var "r") (Num 22)) (Op2 "&" (Op2 ">>" (Load Pub (Op2 "[]" (Op1 ".n" (Var "a")) (Num 1))) (Num 20)) (Num 255));
      Store Pub (Op2 "[]" (Var "r") (Num 23)) (Op2 "&" (Op2 ">>" (Load Pub (Op2 "[]" (Op1 ".n" (Var "a")) (Num 1))) (Num 12)) (Num 255));
      Store Pub (Op2 "[]" (Var "r") (Num 24)) (Op2 "&" (Op2 ">>" (Load Pub (Op2 "[]" (Op1 ".n" (Var "a")) (Num 1))) (Num 4)) (Num 255));
      Store Pub (Op2 "[]" (Var "r") (Num 25)) (Op2 "|" (Op2 "&" (Op2 ">>" (Load Pub (Op2 "[]" (Op1 ".n" (Var "a")) (Num 0))) (Num 48)) (Num 15)) (Op2 "<<" (Op2 "&" (Load Pub (Op2 "[]" (Op1 ".n" (Var "a")) (Num 1))) (Num 15)) (Num 4)));
      Store Pub (Op2 "[]" (Var "r") (Num 26)) (Op2 "&" (Op2 ">>" (Load Pub (Op2 "[]" (Op1 ".n" (Var "a")) (Num 0))) (Num 40)) (Num 255));
      Store Pub (Op2 "[]" (Var "r") (Num 27)) (Op2 "&" (Op2 ">>" (Load Pub (Op2 "[]" (Op1 ".n" (Var "a")) (Num 0))) (Num 32)) (Num 255));
      Store Pub (Op2 "[]" (Var "r") (Num 28)) (Op2 "&" (Op2 ">>" (Load Pub (Op2 "[]" (Op1 ".n" (Var "a")) (Num 0))) (Num 24)) (Num 255));
      Store Pub (Op2 "[]" (Var "r") (Num 29)) (Op2 "&" (Op2 ">>" (Load Pub (Op2 "[]" (Op1 ".n" (Var "a")) (Num 0))) (Num 16)) (Num 255));
      Store Pub (Op2 "[]" (Var "r") (Num 30)) (Op2 "&" (Op2 ">>" (Load Pub (Op2 "[]" (Op1 ".n" (Var "a")) (Num 0))) (Num 8)) (Num 255));
      Store Pub (Op2 "[]" (Var "r") (Num 31)) (Op2 "&" (Load Pub (Op2 "[]" (Op1 ".n" (Var "a")) (Num 0))) (Num 255))]).
(** src/eckey_impl.h:38-56 secp256k1_eckey_pubkey_serialize@PPP *)
Definition c64_eckey_pubkey_serialize__PPP : func := mkfunc "secp256k1_eckey_pubkey_serialize@PPP" [("elem", false); ("pub", false); ("size", false); ("compressed", false)] false
  (seq [Call "t1" "secp256k1_ge_is_infinity@P" [Var "elem"];
      If (Var "t1") (Return (Num 0)) (Skip);
      Call "_" "secp256k1_fe_impl_normalize_var@P" [Op1 ".x" (Var "elem")];
      Call "_" "secp256k1_fe_impl_normalize_var@P" [Op1 ".y" (Var "elem")];
      Call "_" "secp256k1_fe_impl_get_b32@PP" [Op2 "[]" (Var "pub") (Num 1); Op1 ".x" (Var "elem")];
      If (Var "compressed") (seq [Store Pub (Var "size") (Num 33);
      Call "t3" "secp256k1_fe_impl_is_odd@P" [Op1 ".y" (Var "elem")];
      If (Var "t3") (Assign "t2" (Num 3)) (Assign "t2" (Num 2));
      Store Pub (Op2 "[]" (Var "pub") (Num 0)) (Var "t2")]) (seq [Store Pub (Var "size") (Num 65);
      Store Pub (Op2 "[]" (Var "pub") (Num 0)) (Num 4);
      Call "_" "secp256k1_fe_impl_get_b32@PP" [Op2 "[]" (Var "pub") (Num 33); Op1 ".y" (Var "elem")]]);
      Return (Num 1)]).
(** src/modules/musig/session_impl.h:324-335 secp256k1_nonce_function_musig_sha256_tagged_aux *)
Definition c64_nonce_function_musig_sha256_tagged_aux : func := mkfunc "secp256k1_nonce_function_musig_sha256_tagged_aux" [("sha", false)] false
  (seq [Call "_" "secp256k1_sha256_initialize" [Var "sha"];
      Store Sec (Op2 "[]" (Op1 ".s" (Var "sha")) (Num 0)) (Num 2711521355);
      Store Sec (Op2 "[]" (Op1 ".s" (Var "sha")) (Num 1)) (Num 4100193918);
      Store Sec (Op2 "[]" (Op1 ".s" (Var "sha")) (Num 2)) (Num 790165922);
      Store Sec (Op2 "[]" (Op1 ".s" (Var "sha")) (Num 3)) (Num 3199269375);
      Store Sec (Op2 "[]" (Op1 ".s" (Var "sha")) (Num 4)) (Num 255322288);
      Store Sec (Op2 "[]" (Op1 ".s" (Var "sha")) (Num 5)) (Num 116118127);
      Store Sec (Op2 "[]" (Op1 ".s" (Var "sha")) (Num 6)) (Num 3820110802);
      Store Sec (Op2 "[]" (Op1 ".s" (Var "sha")) (Num 7)) (Num 1378857296);
      Store Pub (Op1 ".bytes" (Var "sha")) (Num 64)]).
(** src/modules/musig/session_impl.h:339-350 secp256k1_nonce_function_musig_sha256_tagged *)
Definition c64_nonce_function_musig_sha256_tagged : func := mkfunc "secp256k1_nonce_function_musig_sha256_tagged" [("sha", false)] false
  (seq [Call "_" "secp256k1_sha256_initialize" [Var "sha"];
      Store Sec (Op2 "[]" (Op1 ".s" (Var "sha")) (Num 0)) (Num 118496100);
      Store Sec (Op2 "[]" (Op1 ".s" (Var "sha")) (Num 1)) (Num 402666516);
      Store Sec (Op2 "[]" (Op1 ".s" (Var "sha")) (Num 2)) (Num 59882563);
      Store Sec (Op2 "[]" (Op1 ".s" (Var "sha")) (Num 3)) (Num 241326318);
      Store Sec (Op2 "[]" (Op1 ".s" (Var "sha")) (Num 4)) (Num 701655922);
      Store Sec (Op2 "[]" (Op1 ".s" (Var "sha")) (Num 5)) (Num 2202243966);
      Store Sec (Op2 "[]" (Op1 ".s" (Var "sha")) (Num 6)) (Num 3080758523);
      Store Sec (Op2 "[]" (Op1 ".s" (Var "sha")) (Num 7)) (Num 4283861552);
      Store Pub (Op1 ".bytes" (Var "sha")) (Num 64)]).
(** src/modules/musig/session_impl.h:305-320 secp256k1_nonce_function_musig_helper@SP *)
Definition c64_nonce_function_musig_helper__SP : func := mkfunc "secp256k1_nonce_function_musig_helper@SP" [("sha", false); ("prefix_size", false); ("data", false); ("len", false)] false
  (seq [Store Pub (Addr "len") (Var "len");
      Prim "init" [Addr "zero"];
      Call "_" "secp256k1_sha256_write" [Var "sha"; Addr "zero"; Op2 "-" (Var "prefix_size") (Num 1)];
      If (Op2 "!=" (Var "data") (Num 0)) (seq [Call "_" "secp256k1_sha256_write@SP" [Var "sha"; Addr "len"; Num 1];
      Call "_" "secp256k1_sha256_write@SP" [Var "sha"; Var "data"; Load Pub (Addr "len")]]) (seq [Store Pub (Addr "len") (Num 0);
      Call "_" "secp256k1_sha256_write@SP" [Var "sha"; Addr "len"; Num 1]])]).
(** src/modules/musig/session_impl.h:305-320 secp256k1_nonce_function_musig_helper *)
Definition c64_nonce_function_musig_helper : func := mkfunc "secp256k1_nonce_function_musig_helper" [("sha", false); ("prefix_size", false); ("data", false); ("len", false)] false
  (seq [Store Pub (Addr "len") (Var "len");
      Prim "init" [Addr "zero"];
      Call "_" "secp256k1_sha256_write" [Var "sha"; Addr "zero"; Op2 "-" (Var "prefix_size") (Num 1)];
      If (Op2 "!=" (Var "data") (Num 0)) (seq [Call "_" "secp256k1_sha256_write@SP" [Var "sha"; Addr "len"; Num 1];
      Call "_" "secp256k1_sha256_write" [Var "sha"; Var "data"; Load Pub (Addr "len")]]) (seq [Store Pub (Addr "len") (Num 0);
      Call "_" "secp256k1_sha256_write@SP" [Var "sha"; Addr "len"; Num 1]])]).
(** src/modules/musig/session_impl.h:352-393 secp256k1_nonce_function_musig@SSSSPPS *)
Definition c64_nonce_function_musig__SSSSPPS : func := mkfunc "secp256k1_nonce_function_musig@SSSSPPS" [("k", false); ("session_secrand", false); ("msg32", false); ("seckey32", false); ("pk33", false); ("agg_pk32", false); ("extra_input32", false)] false
  (seq [If (Op2 "!=" (Var "seckey32") (Num 0)) (seq [Call "_" "secp256k1_nonce_function_musig_sha256_tagged_aux" [Addr "sha"];
      Call "_" "secp256k1_sha256_write" [Addr "sha"; Var "session_secrand"; Num 32];
      Call "_" "secp256k1_sha256_finalize" [Addr "sha"; Addr "rand"];
      Store Pub (Addr "i") (Num 0);
      Loop (If (Op2 "<" (Load Pub (Addr "i")) (Num 32)) (seq [Store Sec (Op2 "[]" (Addr "rand") (Load Pub (Addr "i"))) (Op2 "^" (Load Sec (Op2 "[]" (Addr "rand") (Load Pub (Addr "i")))) (Load Sec (Op2 "[]" (Var "seckey32") (Load Pub (Addr "i")))));
      Store Pub (Addr "i") (Op2 "+" (Load Pub (Addr "i")) (Num 1))]) (Break))]) (Prim "memcpy" [Addr "rand"; Var "session_secrand"; Op0 "sizeof ( rand )"]);
      Call "_" "secp256k1_nonce_function_musig_sha256_tagged" [Addr "sha"];
      Call "_" "secp256k1_sha256_write" [Addr "sha"; Addr "rand"; Op0 "sizeof ( rand )"];
      Call "_" "secp256k1_nonce_function_musig_helper@SP" [Addr "sha"; Num 1; Var "pk33"; Num 33];
      Call "_" "secp256k1_nonce_function_musig_helper@SP" [Addr "sha"; Num 1; Var "agg_pk32"; Num 32];
      Store Pub (Addr "msg_present") (Op2 "!=" (Var "msg32") (Num 0));
      Call "_" "secp256k1_sha256_write@SP" [Addr "sha"; Addr "msg_present"; Num 1];
      If (Load Pub (Addr "msg_present")) (Call "_" "secp256k1_nonce_function_musig_helper" [Addr "sha"; Num 8; Var "msg32"; Num 32]) (Skip);
      Call "_" "secp256k1_nonce_function_musig_helper" [Addr "sha"; Num 4; Var "extra_input32"; Num 32];
      Store Pub (Addr "i") (Num 0);
      Loop (If (Op2 "<" (Load Pub (Addr "i")) (Num 2)) (seq [Prim "copy" [Addr "sha_tmp"; Addr "sha"];
      Store Pub (Op1 ".bytes" (Addr "sha_tmp")) (Load Pub (Op1 ".bytes" (Addr "sha")));
      Call "_" "secp256k1_sha256_write@SP" [Addr "sha_tmp"; Addr "i"; Num 1];
      Call "_" "secp256k1_sha256_finalize" [Addr "sha_tmp"; Addr "buf"];
      Call "_" "secp256k1_scalar_set_b32" [Op2 "[]" (Var "k") (Load Pub (Addr "i")); Addr "buf"; Num 0];
      Prim "secp256k1_memclear" [Addr "buf"; Op0 "sizeof ( buf )"];
      Call "_" "secp256k1_sha256_clear" [Addr "sha_tmp"];
      Store Pub (Addr "i") (Op2 "+" (Load Pub (Addr "i")) (Num 1))]) (Break));
      Prim "secp256k1_memclear" [Addr "rand"; Op0 "sizeof ( rand )"];
      Call "_" "secp256k1_sha256_clear" [Addr "sha"]]).
(** src/modules/musig/session_impl.h:57-62 secp256k1_musig_secnonce_save@SSP *)
Definition c64_musig_secnonce_save__SSP : func := mkfunc "secp256k1_musig_secnonce_save@SSP" [("secnonce", false); ("k", false); ("pk", false)] false
  (seq [Prim "memcpy" [Op2 "[]" (Op1 ".data" (Var "secnonce")) (Num 0); Op0 "secp256k1_musig_secnonce_magic"; Num 4];
      Call "_" "secp256k1_scalar_get_b32" [Op2 "[]" (Op1 ".data" (Var "secnonce")) (Num 4); Op2 "[]" (Var "k") (Num 0)];
      Call "_" "secp256k1_scalar_get_b32" [Op2 "[]" (Op1 ".data" (Var "secnonce")) (Num 36); Op2 "[]" (Var "k") (Num 1)];
      Call "_" "secp256k1_ge_to_bytes@SP" [Op2 "[]" (Op1 ".data" (Var "secnonce")) (Num 68); Var "pk"]]).
(** src/group_impl.h:99-113 secp256k1_ge_set_gej_zinv *)
Definition c64_ge_set_gej_zinv : func := mkfunc "secp256k1_ge_set_gej_zinv" [("r", false); ("a", false); ("zi", false)] false
  (seq [Call "_" "secp256k1_fe_impl_sqr" [Addr "zi2"; Var "zi"];
      Call "_" "secp256k1_fe_impl_mul" [Addr "zi3"; Addr "zi2"; Var "zi"];
      Call "_" "secp256k1_fe_impl_mul" [Op1 ".x" (Var "r"); Op1 ".x" (Var "a"); Addr "zi2"];
      Call "_" "secp256k1_fe_impl_mul" [Op1 ".y" (Var "r"); Op1 ".y" (Var "a"); Addr "zi3"];
      Store Sec (Op1 ".infinity" (Var "r")) (Load Sec (Op1 ".infinity" (Var "a")))]).
(** src/group_impl.h:198-234 secp256k1_ge_set_all_gej *)
Definition c64_ge_set_all_gej : func := mkfunc "secp256k1_ge_set_all_gej" [("r", false); ("a", false); ("len", false)] false
  (seq [If (Op2 "==" (Var "len") (Num 0)) (Return (Num 0)) (Skip);
      Prim "copy" [Op1 ".x" (Op2 "[]" (Var "r") (Num 0)); Op1 ".z" (Op2 "[]" (Var "a") (Num 0))];
      Assign "i" (Num 1);
      Loop (If (Op2 "<" (Var "i") (Var "len")) (seq [Call "_" "secp256k1_fe_impl_mul" [Op1 ".x" (Op2 "[]" (Var "r") (Var "i")); Op1 ".x" (Op2 "[]" (Var "r") (Op2 "-" (Var "i") (Num 1))); Op1 ".z" (Op2 "[]" (Var "a") (Var "i"))];
      Assign "i" (Op2 "+" (Var "i") (Num 1))]) (Break));
      Call "_" "secp256k1_fe_impl_inv" [Addr "u"; Op1 ".x" (Op2 "[]" (Var "r") (Op2 "-" (Var "len") (Num 1)))];
      Assign "i" (Op2 "-" (Var "len") (Num 1));
      Loop (If (Op2 ">" (Var "i") (Num 0)) (seq [Call "_" "secp256k1_fe_impl_mul" [Op1 ".x" (Op2 "[]" (Var "r") (Var "i")); Op1 ".x" (Op2 "[]" (Var "r") (Op2 "-" (Var "i") (Num 1))); Addr "u"];
      Call "_" "secp256k1_fe_impl_mul" [Addr "u"; Addr "u"; Op1 ".z" (Op2 "[]" (Var "a") (Var "i"))];
      Assign "i" (Op2 "-" (Var "i") (Num 1))]) (Break));
      Prim "copy" [Op1 ".x" (Op2 "[]" (Var "r") (Num 0)); Addr "u"];
      Assign "i" (Num 0);
      Loop (If (Op2 "<" (Var "i") (Var "len")) (seq [Call "_" "secp256k1_ge_set_gej_zinv" [Op2 "[]" (Var "r") (Var "i"); Op2 "[]" (Var "a") (Var "i"); Op1 ".x" (Op2 "[]" (Var "r") (Var "i"))];
      Assign "i" (Op2 "+" (Var "i") (Num 1))]) (Break))]).
(** src/modules/musig/session_impl.h:94-100 secp256k1_musig_pubnonce_save *)
Definition c64_musig_pubnonce_save : func := mkfunc "secp256k1_musig_pubnonce_save" [("nonce", false); ("ges", false)] false
  (seq [Prim "memcpy" [Op2 "[]" (Op1 ".data" (Var "nonce")) (Num 0); Op0 "secp256k1_musig_pubnonce_magic"; Num 4];
      Assign "i" (Num 0);
      Loop (If (Op2 "<" (Var "i") (Num 2)) (seq [Call "_" "secp256k1_ge_to_bytes" [Op2 "+" (Op2 "+" (Op1 ".data" (Var "nonce")) (Num 4)) (Op2 "*" (Num 64) (Var "i")); Op2 "[]" (Var "ges") (Var "i")];
      Assign "i" (Op2 "+" (Var "i") (Num 1))]) (Break))]).
(** src/modules/musig/session_impl.h:395-467 secp256k1_musig_nonce_gen_internal@SSSSSPSPS *)
Definition c64_musig_nonce_gen_internal__SSSSSPSPS : func := mkfunc "secp256k1_musig_nonce_gen_internal@SSSSSPSPS" [("ctx", false); ("secnonce", false); ("pubnonce", false); ("input_nonce", false); ("seckey", false); ("pubkey", false); ("msg32", false); ("keyagg_cache", false); ("extra_input32", false)] true
  (seq [Store Pub (Addr "pk_ser_len") (Op0 "sizeof ( pk_ser )");
      Assign "aggpk_ser_ptr" (Num 0);
      Assign "ret" (Num 1);
      If (Op1 "!" (Op2 "!=" (Var "pubnonce") (Num 0))) (seq [Prim "callback" [];
      Return (Num 0)]) (Skip);
      Prim "memset" [Var "pubnonce"; Num 0; Op0 "sizeof ( * pubnonce )"];
      If (Op1 "!" (Op2 "!=" (Var "pubkey") (Num 0))) (seq [Prim "callback" [];
      Return (Num 0)]) (Skip);
      Call "t1" "secp256k1_ecmult_gen_context_is_built" [Op1 ".ecmult_gen_ctx" (Var "ctx")];
      If (Op1 "!" (Var "t1")) (seq [Prim "callback" [];
      Return (Num 0)]) (Skip);
      If (Op2 "!=" (Var "seckey") (Num 0)) (seq [Call "t2" "secp256k1_scalar_set_b32_seckey" [Addr "sk"; Var "seckey"];
      Assign "ret" (Op2 "&" (Var "ret") (Var "t2"));
      Call "_" "secp256k1_scalar_clear" [Addr "sk"]]) (Skip);
      If (Op2 "!=" (Var "keyagg_cache") (Num 0)) (seq [Call "t3" "secp256k1_keyagg_cache_load@SPP" [Var "ctx"; Addr "cache_i"; Var "keyagg_cache"];
      If (Op1 "!" (Var "t3")) (Return (Num 0)) (Skip);
      Call "_" "secp256k1_fe_impl_get_b32@PP" [Addr "aggpk_ser"; Op1 ".x" (Op1 ".pk" (Addr "cache_i"))];
      Assign "aggpk_ser_ptr" (Addr "aggpk_ser")]) (Skip);
      Call "t4" "secp256k1_pubkey_load@SPP" [Var "ctx"; Addr "pk"; Var "pubkey"];
      If (Op1 "!" (Var "t4")) (Return (Num 0)) (Skip);
      Call "t5" "secp256k1_eckey_pubkey_serialize@PPP" [Addr "pk"; Addr "pk_ser"; Addr "pk_ser_len"; Num 1];
      Assign "pk_serialize_success" (Var "t5");
      Call "_" "secp256k1_nonce_function_musig@SSSSPPS" [Addr "k"; Var "input_nonce"; Var "msg32"; Var "seckey"; Addr "pk_ser"; Var "aggpk_ser_ptr"; Var "extra_input32"];
      Call "_" "secp256k1_musig_secnonce_save@SSP" [Var "secnonce"; Addr "k"; Addr "pk"];
      Call "_" "secp256k1_musig_secnonce_invalidate" [Var "ctx"; Var "secnonce"; Op1 "!" (Var "ret")];
      Assign "i" (Num 0);
      Loop (If (Op2 "<" (Var "i") (Num 2)) (seq [Call "_" "secp256k1_ecmult_gen" [Op1 ".ecmult_gen_ctx" (Var "ctx"); Op2 "[]" (Addr "nonce_ptj") (Var "i"); Op2 "[]" (Addr "k") (Var "i")];
      Call "_" "secp256k1_scalar_clear" [Op2 "[]" (Addr "k") (Var "i")];
      Assign "i" (Op2 "+" (Var "i") (Num 1))]) (Break));
      Call "_" "secp256k1_ge_set_all_gej" [Addr "nonce_pts"; Addr "nonce_ptj"; Num 2];
      Assign "i" (Num 0);
      Loop (If (Op2 "<" (Var "i") (Num 2)) (seq [Call "_" "secp256k1_gej_clear" [Op2 "[]" (Addr "nonce_ptj") (Var "i")];
      Assign "i" (Op2 "+" (Var "i") (Num 1))]) (Break));
      Assign "i" (Num 0);
      Loop (If (Op2 "<" (Var "i") (Num 2)) (seq [Expose "secp256k1_musig_nonce_gen_internal: &nonce_pts[i]" (Op2 "[]" (Addr "nonce_pts") (Var "i")) (Op0 "sizeof ( nonce_pts [ i ] )");
      Assign "i" (Op2 "+" (Var "i") (Num 1))]) (Break));
      Call "_" "secp256k1_musig_pubnonce_save" [Var "pubnonce"; Addr "nonce_pts"];
      Return (Var "ret")]).
(** src/modules/musig/session_impl.h:469-495 secp256k1_musig_nonce_gen *)
Definition c64_musig_nonce_gen : func := mkfunc "secp256k1_musig_nonce_gen" [("ctx", false); ("secnonce", false); ("pubnonce", false); ("session_secrand32", false); ("seckey", false); ("pubkey", false); ("msg32", false); ("keyagg_cache", false); ("extra_input32", false)] true
  (seq [Assign "ret" (Num 1);
      If (Op1 "!" (Op2 "!=" (Var "secnonce") (Num 0))) (seq [Prim "callback" [];
      Return (Num 0)]) (Skip);
      Prim "memset" [Var "secnonce"; Num 0; Op0 "sizeof ( * secnonce )"];
      If (Op1 "!" (Op2 "!=" (Var "session_secrand32") (Num 0))) (seq [Prim "callback" [];
      Return (Num 0)]) (Skip);
      Call "t1" "secp256k1_is_zero_array" [Var "session_secrand32"; Num 32];
      Assign "ret" (Op2 "&" (Var "ret") (Op1 "!" (Var "t1")));
      Assign "ret" (Reveal "secp256k1_musig_nonce_gen: ret" (Var "ret"));
      If (Op2 "==" (Var "ret") (Num 0)) (seq [Call "_" "secp256k1_musig_secnonce_invalidate" [Var "ctx"; Var "secnonce"; Num 1];
      Return (Num 0)]) (Skip);
      Call "t2" "secp256k1_musig_nonce_gen_internal@SSSSSPSPS" [Var "ctx"; Var "secnonce"; Var "pubnonce"; Var "session_secrand32"; Var "seckey"; Var "pubkey"; Var "msg32"; Var "keyagg_cache"; Var "extra_input32"];
      Assign "ret" (Op2 "&" (Var "ret") (Var "t2"));
      Call "_" "secp256k1_memczero" [Var "session_secrand32"; Num 32; Var "ret"];
      Return (Var "ret")]).
(** src/modules/extrakeys/main_impl.h:224-232 secp256k1_keypair_pub@SPP *)
Definition c64_keypair_pub__SPP : func := mkfunc "secp256k1_keypair_pub@SPP" [("ctx", false); ("pubkey", false); ("keypair", false)] false
  (seq [If (Op1 "!" (Op2 "!=" (Var "pubkey") (Num 0))) (seq [Prim "callback" [];
      Return (Num 0)]) (Skip);
      PubPrim "_" "memset" [Var "pubkey"; Num 0; Op0 "sizeof ( * pubkey )"];
      If (Op1 "!" (Op2 "!=" (Var "keypair") (Num 0))) (seq [Prim "callback" [];
      Return (Num 0)]) (Skip);
      PubPrim "_" "memcpy" [Op1 ".data" (Var "pubkey"); Op2 "[]" (Op1 ".data" (Var "keypair")) (Num 32); Op0 "sizeof ( * pubkey )"];
      Return (Num 1)]).
(** src/modules/musig/session_impl.h:497-523 secp256k1_musig_nonce_gen_counter *)
Definition c64_musig_nonce_gen_counter : func := mkfunc "secp256k1_musig_nonce_gen_counter" [("ctx", false); ("secnonce", false); ("pubnonce", false); ("nonrepeating_cnt", true); ("keypair", false); ("msg32", false); ("keyagg_cache", false); ("extra_input32", false)] false
  (seq [Prim "init" [Addr "buf"];
      If (Op1 "!" (Op2 "!=" (Var "secnonce") (Num 0))) (seq [Prim "callback" [];
      Return (Num 0)]) (Skip);
      Prim "memset" [Var "secnonce"; Num 0; Op0 "sizeof ( * secnonce )"];
      If (Op1 "!" (Op2 "!=" (Var "keypair") (Num 0))) (seq [Prim "callback" [];
      Return (Num 0)]) (Skip);
      Call "_" "secp256k1_write_be64" [Addr "buf"; Var "nonrepeating_cnt"];
      Call "t1" "secp256k1_keypair_sec" [Var "ctx"; Addr "seckey"; Var "keypair"];
      Assign "ret" (Var "t1");
      Call "t2" "secp256k1_keypair_pub@SPP" [Var "ctx"; Addr "pubkey"; Var "keypair"];
      Assign "ret" (Var "t2");
      Call "t3" "secp256k1_musig_nonce_gen_internal@SSSSSPSPS" [Var "ctx"; Var "secnonce"; Var "pubnonce"; Addr "buf"; Addr "seckey"; Addr "pubkey"; Var "msg32"; Var "keyagg_cache"; Var "extra_input32"];
      If (Reveal "secp256k1_musig_nonce_gen_counter: secret key is valid" (Op1 "!" (Var "t3"))) (Return (Num 0)) (Skip);
      Prim "secp256k1_memclear" [Addr "seckey"; Op0 "sizeof ( seckey )"];
      Return (Num 1)]).
(** src/modules/musig/session_impl.h:64-77 secp256k1_musig_secnonce_load@SSPS *)
Definition c64_musig_secnonce_load__SSPS : func := mkfunc "secp256k1_musig_secnonce_load@SSPS" [("ctx", false); ("k", false); ("pk", false); ("secnonce", false)] false
  (seq [Call "t1" "secp256k1_memcmp_var@PP" [Op2 "[]" (Op1 ".data" (Var "secnonce")) (Num 0); Op0 "secp256k1_musig_secnonce_magic"; Num 4];
      If (Op1 "!" (Op2 "==" (Var "t1") (Num 0))) (seq [Prim "callback" [];
      Return (Num 0)]) (Skip);
      Call "t2" "secp256k1_is_zero_array" [Op2 "[]" (Op1 ".data" (Var "secnonce")) (Num 4); Op2 "*" (Num 2) (Num 32)];
      Assign "is_zero" (Var "t2");
      Assign "is_zero" (Reveal "secp256k1_musig_secnonce_load: is_zero" (Var "is_zero"));
      If (Op1 "!" (Op1 "!" (Var "is_zero"))) (seq [Prim "callback" [];
      Return (Num 0)]) (Skip);
      Call "_" "secp256k1_scalar_set_b32" [Op2 "[]" (Var "k") (Num 0); Op2 "[]" (Op1 ".data" (Var "secnonce")) (Num 4); Num 0];
      Call "_" "secp256k1_scalar_set_b32" [Op2 "[]" (Var "k") (Num 1); Op2 "[]" (Op1 ".data" (Var "secnonce")) (Num 36); Num 0];
      Call "_" "secp256k1_ge_from_bytes@PP" [Var "pk"; Op2 "[]" (Op1 ".data" (Var "secnonce")) (Num 68)];
      Return (Num 1)]).
(** src/modules/musig/session_impl.h:660-664 secp256k1_musig_partial_sign_clear *)
Definition c64_musig_partial_sign_clear : func := mkfunc "secp256k1_musig_partial_sign_clear" [("sk", false); ("k", false)] false
  (seq [Call "_" "secp256k1_scalar_clear" [Var "sk"];
      Call "_" "secp256k1_scalar_clear" [Op2 "[]" (Var "k") (Num 0)];
      Call "_" "secp256k1_scalar_clear" [Op2 "[]" (Var "k") (Num 1)]]).
(** src/field_5x52_impl.h:137-158 secp256k1_fe_impl_normalizes_to_zero@P *)
Definition c64_fe_impl_normalizes_to_zero__P : func := mkfunc "secp256k1_fe_impl_normalizes_to_zero@P" [("r", false)] false
  (seq [Assign "t0" (Load Pub (Op2 "[]" (Op1 ".n" (Var "r")) (Num 0)));
      Assign "t1" (Load Pub (Op2 "[]" (Op1 ".n" (Var "r")) (Num 1)));
      Assign "t2" (Load Pub (Op2 "[]" (Op1 ".n" (Var "r")) (Num 2)));
      Assign "t3" (Load Pub (Op2 "[]" (Op1 ".n" (Var "r")) (Num 3)));
      Assign "t4" (Load Pub (Op2 "[]" (Op1 ".n" (Var "r")) (Num 4)));
      Assign "x" (Op2 ">>" (Var "t4") (Num 48));
      Assign "t4" (Op2 "&" (Var "t4") (Num 281474976710655));
      Assign "t0" (Op2 "+" (Var "t0") (Op2 "*" (Var "x") (Num 4294968273)));
      Assign "t1" (Op2 "+" (Var "t1") (Op2 ">>" (Var "t0") (Num 52)));
      Assign "t0" (Op2 "&" (Var "t0") (Num 4503599627370495));
      Assign "z0" (Var "t0");
      Assign "z1" (Op2 "^" (Var "t0") (Num 4294968272));
      Assign "t2" (Op2 "+" (Var "t2") (Op2 ">>" (Var "t1") (Num 52)));
      Assign "t1" (Op2 "&" (Var "t1") (Num 4503599627370495));
      Assign "z0" (Op2 "|" (Var "z0") (Var "t1"));
      Assign "z1" (Op2 "&" (Var "z1") (Var "t1"));
      Assign "t3" (Op2 "+" (Var "t3") (Op2 ">>" (Var "t2") (Num 52)));
      Assign "t2" (Op2 "&" (Var "t2") (Num 4503599627370495));
      Assign "z0" (Op2 "|" (Var "z0") (Var "t2"));
      Assign "z1" (Op2 "&" (Var "z1") (Var "t2"));
      Assign "t4" (Op2 "+" (Var "t4") (Op2 ">>" (Var "t3") (Num 52)));
      Assign "t3" (Op2 "&" (Var "t3") (Num 4503599627370495));
      Assign "z0" (Op2 "|" (Var "z0") (Var "t3"));
      Assign "z1" (Op2 "&" (Var "z1") (Var "t3"));
      Assign "z0" (Op2 "|" (Var "z0") (Var "t4"));
      Assign "z1" (Op2 "&" (Var "z1") (Op2 "^" (Var "t4") (Num 4222124650659840)));
      Return (Op2 "|" (Op2 "==" (Var "z0") (Num 0)) (Op2 "==" (Var "z1") (Num 4503599627370495)))]).
(** src/field_impl.h:25-35 secp256k1_fe_equal@PP *)
Definition c64_fe_equal__PP : func := mkfunc "secp256k1_fe_equal@PP" [("a", false); ("b", false)] false
  (seq [Call "_" "secp256k1_fe_impl_negate_unchecked@PP" [Addr "na"; Var "a"; Num 1];
      Call "_" "secp256k1_fe_impl_add@PP" [Addr "na"; Var "b"];
      Call "t1" "secp256k1_fe_impl_normalizes_to_zero@P" [Addr "na"];
      Return (Var "t1")]).
(** src/group_impl.h:398-415 secp256k1_ge_eq_var@PP *)
Definition c64_ge_eq_var__PP : func := mkfunc "secp256k1_ge_eq_var@PP" [("a", false); ("b", false)] false
  (seq [If (Op2 "!=" (Load Pub (Op1 ".infinity" (Var "a"))) (Load Pub (Op1 ".infinity" (Var "b")))) (Return (Num 0)) (Skip);
      If (Load Pub (Op1 ".infinity" (Var "a"))) (Return (Num 1)) (Skip);
      PubPrim "_" "copy" [Addr "tmp"; Op1 ".x" (Var "a")];
      Call "_" "secp256k1_fe_impl_normalize_weak@P" [Addr "tmp"];
      Call "t1" "secp256k1_fe_equal@PP" [Addr "tmp"; Op1 ".x" (Var "b")];
      If (Op1 "!" (Var "t1")) (Return (Num 0)) (Skip);
      PubPrim "_" "copy" [Addr "tmp"; Op1 ".y" (Var "a")];
      Call "_" "secp256k1_fe_impl_normalize_weak@P" [Addr "tmp"];
      Call "t2" "secp256k1_fe_equal@PP" [Addr "tmp"; Op1 ".y" (Var "b")];
      If (Op1 "!" (Var "t2")) (Return (Num 0)) (Skip);
      Return (Num 1)]).
(** src/scalar_4x64_impl.h:32-39 secp256k1_scalar_set_int@P *)
Definition c64_scalar_set_int__P : func := mkfunc "secp256k1_scalar_set_int@P" [("r", false); ("v", false)] false
  (seq [Store Pub (Op2 "[]" (Op1 ".d" (Var "r")) (Num 0)) (Var "v");
      Store Pub (Op2 "[]" (Op1 ".d" (Var "r")) (Num 1)) (Num 0);
      Store Pub (Op2 "[]" (Op1 ".d" (Var "r")) (Num 2)) (Num 0);
      Store Pub (Op2 "[]" (Op1 ".d" (Var "r")) (Num 3)) (Num 0)]).
(** src/hash_impl.h:31-41 secp256k1_sha256_initialize@P *)
Definition c64_sha256_initialize__P : func := mkfunc "secp256k1_sha256_initialize@P" [("hash", false)] false
  (seq [Store Pub (Op2 "[]" (Op1 ".s" (Var "hash")) (Num 0)) (Num 1779033703);
      Store Pub (Op2 "[]" (Op1 ".s" (Var "hash")) (Num 1)) (Num 3144134277);
      Store Pub (Op2 "[]" (Op1 ".s" (Var "hash")) (Num 2)) (Num 1013904242);
      Store Pub (Op2 "[]" (Op1 ".s" (Var "hash")) (Num 3)) (Num 2773480762);
      Store Pub (Op2 "[]" (Op1 ".s" (Var "hash")) (Num 4)) (Num 1359893119);
      Store Pub (Op2 "[]" (Op1 ".s" (Var "hash")) (Num 5)) (Num 2600822924);
      Store Pub (Op2 "[]" (Op1 ".s" (Var "hash")) (Num 6)) (Num 528734635);
      Store Pub (Op2 "[]" (Op1 ".s" (Var "hash")) (Num 7)) (Num 1541459225);
      Store Pub (Op1 ".bytes" (Var "hash")) (Num 0)]).
(** src/modules/musig/keyagg_impl.h:99-111 secp256k1_musig_keyaggcoef_sha256@P *)
Definition c64_musig_keyaggcoef_sha256__P : func := mkfunc "secp256k1_musig_keyaggcoef_sha256@P" [("sha", false)] false
  (seq [Call "_" "secp256k1_sha256_initialize@P" [Var "sha"];
      Store Pub (Op2 "[]" (Op1 ".s" (Var "sha")) (Num 0)) (Num 1861233754);
      Store Pub (Op2 "[]" (Op1 ".s" (Var "sha")) (Num 1)) (Num 111444190);
      Store Pub (Op2 "[]" (Op1 ".s" (Var "sha")) (Num 2)) (Num 522815077);
      Store Pub (Op2 "[]" (Op1 ".s" (Var "sha")) (Num 3)) (Num 487666930);
      Store Pub (Op2 "[]" (Op1 ".s" (Var "sha")) (Num 4)) (Num 1453371491);
      Store Pub (Op2 "[]" (Op1 ".s" (Var "sha")) (Num 5)) (Num 1390035271);
      Store Pub (Op2 "[]" (Op1 ".s" (Var "sha")) (Num 6)) (Num 4068530644);
      Store Pub (Op2 "[]" (Op1 ".s" (Var "sha")) (Num 7)) (Num 1149550101);
      Store Pub (Op1 ".bytes" (Var "sha")) (Num 64)]).
(** src/util.h:408-413 secp256k1_write_be32@P *)
Definition c64_write_be32__P : func := mkfunc "secp256k1_write_be32@P" [("p", false); ("x", false)] false
  (seq [Store Pub (Op2 "[]" (Var "p") (Num 3)) (Var "x");
      Store Pub (Op2 "[]" (Var "p") (Num 2)) (Op2 ">>" (Var "x") (Num 8));
      Store Pub (Op2 "[]" (Var "p") (Num 1)) (Op2 ">>" (Var "x") (Num 16));
      Store Pub (Op2 "[]" (Var "p") (Num 0)) (Op2 ">>" (Var "x") (Num 24))]).
(** src/hash_impl.h:145-159 secp256k1_sha256_finalize@PP *)
Definition c64_sha256_finalize__PP : func := mkfunc "secp256k1_sha256_finalize@PP" [("hash", false); ("out32", false)] false
  (seq [Call "_" "secp256k1_write_be32@P" [Op2 "[]" (Addr "sizedesc") (Num 0); Op2 ">>" (Load Pub (Op1 ".bytes" (Var "hash"))) (Num 29)];
      Call "_" "secp256k1_write_be32@P" [Op2 "[]" (Addr "sizedesc") (Num 4); Op2 "<<" (Load Pub (Op1 ".bytes" (Var "hash"))) (Num 3)];
      Call "_" "secp256k1_sha256_write@PP" [Var "hash"; Op0 "secp256k1_sha256_finalize.pad"; Op2 "+" (Num 1) (Op2 "%" (Op2 "-" (Num 119) (Op2 "%" (Load Pub (Op1 ".bytes" (Var "hash"))) (Num 64))) (Num 64))];
      Call "_" "secp256k1_sha256_write@PP" [Var "hash"; Addr "sizedesc"; Num 8];
      Assign "i" (Num 0);
      Loop (If (Op2 "<" (Var "i") (Num 8)) (seq [Call "_" "secp256k1_write_be32@P" [Op2 "[]" (Var "out32") (Op2 "*" (Num 4) (Var "i")); Load Pub (Op2 "[]" (Op1 ".s" (Var "hash")) (Var "i"))];
      Store Pub (Op2 "[]" (Op1 ".s" (Var "hash")) (Var "i")) (Num 0);
      Assign "i" (Op2 "+" (Var "i") (Num 1))]) (Break))]).
(** src/modules/musig/keyagg_impl.h:118-143 secp256k1_musig_keyaggcoef_internal@PPPP *)
Definition c64_musig_keyaggcoef_internal__PPPP : func := mkfunc "secp256k1_musig_keyaggcoef_internal@PPPP" [("r", false); ("pks_hash", false); ("pk", false); ("second_pk", false)] false
  (seq [Call "t2" "secp256k1_ge_is_infinity@P" [Var "second_pk"];
      If (Op1 "!" (Var "t2")) (seq [Call "t3" "secp256k1_ge_eq_var@PP" [Var "pk"; Var "second_pk"];
      Assign "t1" (Op2 "!=" (Var "t3") (Num 0))]) (Assign "t1" (Num 0));
      If (Var "t1") (Call "_" "secp256k1_scalar_set_int@P" [Var "r"; Num 1]) (seq [Store Pub (Addr "buflen") (Op0 "sizeof ( buf )");
      Call "_" "secp256k1_musig_keyaggcoef_sha256@P" [Addr "sha"];
      Call "_" "secp256k1_sha256_write@PP" [Addr "sha"; Var "pks_hash"; Num 32];
      Call "t4" "secp256k1_eckey_pubkey_serialize@PPP" [Var "pk"; Addr "buf"; Addr "buflen"; Num 1];
      Assign "ret" (Var "t4");
      Call "_" "secp256k1_sha256_write@PP" [Addr "sha"; Addr "buf"; Op0 "sizeof ( buf )"];
      Call "_" "secp256k1_sha256_finalize@PP" [Addr "sha"; Addr "buf"];
      Call "_" "secp256k1_scalar_set_b32@PPS" [Var "r"; Addr "buf"; Num 0]])]).
(** src/modules/musig/keyagg_impl.h:147-149 secp256k1_musig_keyaggcoef@PPP *)
Definition c64_musig_keyaggcoef__PPP : func := mkfunc "secp256k1_musig_keyaggcoef@PPP" [("r", false); ("cache_i", false); ("pk", false)] false
  (Call "_" "secp256k1_musig_keyaggcoef_internal@PPPP" [Var "r"; Op1 ".pks_hash" (Var "cache_i"); Var "pk"; Op1 ".second_pk" (Var "cache_i")]).
(** src/modules/musig/session_impl.h:160-175 secp256k1_musig_session_load@SPP *)
Definition c64_musig_session_load__SPP : func := mkfunc "secp256k1_musig_session_load@SPP" [("ctx", false); ("session_i", false); ("session", false)] false
  (seq [Assign "ptr" (Op1 ".data" (Var "session"));
      Call "t1" "secp256k1_memcmp_var@PP" [Var "ptr"; Op0 "secp256k1_musig_session_cache_magic"; Num 4];
      If (Op1 "!" (Op2 "==" (Var "t1") (Num 0))) (seq [Prim "callback" [];
      Return (Num 0)]) (Skip);
      Assign "ptr" (Op2 "+" (Var "ptr") (Num 4));
      Store Pub (Op1 ".fin_nonce_parity" (Var "session_i")) (Load Pub (Var "ptr"));
      Assign "ptr" (Op2 "+" (Var "ptr") (Num 1));
      PubPrim "_" "memcpy" [Op1 ".fin_nonce" (Var "session_i"); Var "ptr"; Num 32];
      Assign "ptr" (Op2 "+" (Var "ptr") (Num 32));
      Call "_" "secp256k1_scalar_set_b32@PPS" [Op1 ".noncecoef" (Var "session_i"); Var "ptr"; Num 0];
      Assign "ptr" (Op2 "+" (Var "ptr") (Num 32));
      Call "_" "secp256k1_scalar_set_b32@PPS" [Op1 ".challenge" (Var "session_i"); Var "ptr"; Num 0];
      Assign "ptr" (Op2 "+" (Var "ptr") (Num 32));
      Call "_" "secp256k1_scalar_set_b32@PPS" [Op1 ".s_part" (Var "session_i"); Var "ptr"; Num 0];
      Return (Num 1)]).
(** src/scalar_4x64_impl.h:678-846 secp256k1_scalar_mul_512@SPS *)
Definition c64_scalar_mul_512__SPS : func := mkfunc "secp256k1_scalar_mul_512@SPS" [("l8", false); ("a", false); ("b", false)] false
  (seq [Assign "c0" (Num 0);
      Assign "c1" (Num 0);
      Assign "c2" (Num 0);
      Call "_" "secp256k1_u128_mul" [Addr "t"; Load Pub (Op2 "[]" (Op1 ".d" (Var "a")) (Num 0)); Load Sec (Op2 "[]" (Op1 ".d" (Var "b")) (Num 0))];
      Call "t1" "secp256k1_u128_hi_u64" [Addr "t"];
      Assign "th" (Var "t1");
      Call "t2" "secp256k1_u128_to_u64" [Addr "t"];
      Assign "tl" (Var "t2");
      Assign "c0" (Op2 "+" (Var "c0") (Var "tl"));
      Assign "th" (Op2 "+" (Var "th") (Op2 "<" (Var "c0") (Var "tl")));
      Assign "c1" (Op2 "+" (Var "c1") (Var "th"));
      Store Sec (Op2 "[]" (Var "l8") (Num 0)) (Var "c0");
      Assign "c0" (Var "c1");
      Assign "c1" (Num 0);
      Call "_" "secp256k1_u128_mul" [Addr "t_2"; Load Pub (Op2 "[]" (Op1 ".d" (Var "a")) (Num 0)); Load Sec (Op2 "[]" (Op1 ".d" (Var "b")) (Num 1))];
      Call "t3" "secp256k1_u128_hi_u64" [Addr "t_2"];
      Assign "th_2" (Var "t3");
      Call "t4" "secp256k1_u128_to_u64" [Addr "t_2"];
      Assign "tl_2" (Var "t4");
      Assign "c0" (Op2 "+" (Var "c0") (Var "tl_2"));
      Assign "th_2" (Op2 "+" (Var "th_2") (Op2 "<" (Var "c0") (Var "tl_2")));
      Assign "c1" (Op2 "+" (Var "c1") (Var "th_2"));
      Assign "c2" (Op2 "+" (Var "c2") (Op2 "<" (Var "c1") (Var "th_2")));
      Call "_" "secp256k1_u128_mul" [Addr "t_3"; Load Pub (Op2 "[]" (Op1 ".d" (Var "a")) (Num 1)); Load Sec (Op2 "[]" (Op1 ".d" (Var "b")) (Num 0))];
      Call "t5" "secp256k1_u128_hi_u64" [Addr "t_3"];
      Assign "th_3" (Var "t5");
      Call "t6" "secp256k1_u128_to_u64" [Addr "t_3"];
      Assign "tl_3" (Var "t6");
      Assign "c0" (Op2 "+" (Var "c0") (Var "tl_3"));
      Assign "th_3" (Op2 "+" (Var "th_3") (Op2 "<" (Var "c0") (Var "tl_3")));
      Assign "c1" (Op2 "+" (Var "c1") (Var "th_3"));
      Assign "c2" (Op2 "+" (Var "c2") (Op2 "<" (Var "c1") (Var "th_3")));
      Store Sec (Op2 "[]" (Var "l8") (Num 1)) (Var "c0");
      Assign "c0" (Var "c1");
      Assign "c1" (Var "c2");
      Assign "c2" (Num 0);
      Call "_" "secp256k1_u128_mul" [Addr "t_4"; Load Pub (Op2 "[]" (Op1 ".d" (Var "a")) (Num 0)); Load Sec (Op2 "[]" (Op1 ".d" (Var "b")) (Num 2))];
      Call "t7" "secp256k1_u128_hi_u64" [Addr "t_4"];
      Assign "th_4" (Var "t7");
      Call "t8" "secp256k1_u128_to_u64" [Addr "t_4"];
      Assign "tl_4" (Var "t8");
      Assign "c0" (Op2 "+" (Var "c0") (Var "tl_4"));
      Assign "th_4" (Op2 "+" (Var "th_4") (Op2 "<" (Var "c0") (Var "tl_4")));
      Assign "c1" (Op2 "+" (Var "c1") (Var "th_4"));
      Assign "c2" (Op2 "+" (Var "c2") (Op2 "<" (Var "c1") (Var "th_4")));
      Call "_" "secp256k1_u128_mul" [Addr "t_5"; Load Pub (Op2 "[]" (Op1 ".d" (Var "a")) (Num 1)); Load Sec (Op2 "[]" (Op1 ".d" (Var "b")) (Num 1))];
      Call "t9" "secp256k1_u128_hi_u64" [Addr "t_5"];
      Assign "th_5" (Var "t9");
      Call "t10" "secp256k1_u128_to_u64" [Addr "t_5"];
      Assign "tl_5" (Var "t10");
      Assign "c0" (Op2 "+" (Var "c0") (Var "tl_5"));
      Assign "th_5" (Op2 "+" (Var "th_5") (Op2 "<" (Var "c0") (Var "tl_5")));
      Assign "c1" (Op2 "+" (Var "c1") (Var "th_5"));
      Assign "c2" (Op2 "+" (Var "c2") (Op2 "<" (Var "c1") (Var "th_5")));
      Call "_" "secp256k1_u128_mul" [Addr "t_6"; Load Pub (Op2 "[]" (Op1 ".d" (Var "a")) (Num 2)); Load Sec (Op2 "[]" (Op1 ".d" (Var "b")) (Num 0))];
      Call "t11" "secp256k1_u128_hi_u64" [Addr "t_6"];
      Assign "th_6" (Var "t11");
      Call "t12" "secp256k1_u128_to_u64" [Addr "t_6"];
      Assign "tl_6" (Var "t12");
      Assign "c0" (Op2 "+" (Var "c0") (Var "tl_6"));
      Assign "th_6" (Op2 "+" (Var "th_6") (Op2 "<" (Var "c0") (Var "tl_6")));
      Assign "c1" (Op2 "+" (Var "c1") (Var "th_6"));
      Assign "c2" (Op2 "+" (Var "c2") (Op2 "<" (Var "c1") (Var "th_6")));
      Store Sec (Op2 "[]" (Var "l8") (Num 2)) (Var "c0");
      Assign "c0" (Var "c1");
      Assign "c1" (Var "c2");
      Assign "c2" (Num 0);
      Call "_" "secp256k1_u128_mul" [Addr "t_7"; Load Pub (Op2 "[]" (Op1 ".d" (Var "a")) (Num 0)); Load Sec (Op2 "[]" (Op1 ".d" (Var "b")) (Num 3))];
      Call "t13" "secp256k1_u128_hi_u64" [Addr "t_7"];
      Assign "th_7" (Var "t13");
      Call "t14" "secp256k1_u128_to_u64" [Addr "t_7"];
      Assign "tl_7" (Var "t14");
      Assign "c0" (Op2 "+" (Var "c0") (Var "tl_7"));
      Assign "th_7" (Op2 "+" (Var "th_7") (Op2 "<" (Var "c0") (Var "tl_7")));
      Assign "c1" (Op2 "+" (Var "c1") (Var "th_7"));
      Assign "c2" (Op2 "+" (Var "c2") (Op2 "<" (Var "c1") (Var "th_7")));
      Call "_" "secp256k1_u128_mul" [Addr "t_8"; Load Pub (Op2 "[]" (Op1 ".d" (Var "a")) (Num 1)); Load Sec (Op2 "[]" (Op1 ".d" (Var "b")) (Num 2))];
      Call "t15" "secp256k1_u128_hi_u64" [Addr "t_8"];
      Assign "th_8" (Var "t15");
      Call "t16" "secp256k1_u128_to_u64" [Addr "t_8"];
      Assign "tl_8" (Var "t16");
      Assign "c0" (Op2 "+" (Var "c0") (Var "tl_8"));
      Assign "th_8" (Op2 "+" (Var "th_8") (Op2 "<" (Var "c0") (Var "tl_8")));
      Assign "c1" (Op2 "+" (Var "c1") (Var "th_8"));
      Assign "c2" (Op2 "+" (Var "c2") (Op2 "<" (Var "c1") (Var "th_8")));
      Call "_" "secp256k1_u128_mul" [Addr "t_9"; Load Pub (Op2 "[]" (Op1 ".d" (Var "a")) (Num 2)); Load Sec (Op2 "[]" (Op1 ".d" (Var "b")) (Num 1))];
      Call "t17" "secp256k1_u128_hi_u64" [Addr "t_9"];
      Assign "th_9" (Var "t17");
      Call "t18" "secp256k1_u128_to_u64" [Addr "t_9"];
      Assign "tl_9" (Var "t18");
      Assign "c0" (Op2 "+" (Var "c0") (Var "tl_9"));
      Assign "th_9" (Op2 "+" (Var "th_9") (Op2 "<" (Var "c0") (Var "tl_9")));
      Assign "c1" (Op2 "+" (Var "c1") (Var "th_9"));
      Assign "c2" (Op2 "+" (Var "c2") (Op2 "<" (Var "c1") (Var "th_9")));
      Call "_" "secp256k1_u128_mul" [Addr "t_10"; Load Pub (Op2 "[]" (Op1 ".d" (Var "a")) (Num 3)); Load Sec (Op2 "[]" (Op1 ".d" (Var "b")) (Num 0))];
      Call "t19" "secp256k1_u128_hi_u64" [Addr "t_10"];
      Assign "th_10" (Var "t19");
      Call "t20" "secp256k1_u128_to_u64" [Addr "t_10"];
      Assign "tl_10" (Var "t20");
      Assign "c0" (Op2 "+" (Var "c0") (Var "tl_10"));
      Assign "th_10" (Op2 "+" (Var "th_10") (Op2 "<" (Var "c0") (Var "tl_10")));
      Assign "c1" (Op2 "+" (Var "c1") (Var "th_10"));
      Assign "c2" (Op2 "+" (Var "c2") (Op2 "<" (Var "c1") (Var "th_10")));
      Store Sec (Op2 "[]" (Var "l8") (Num 3)) (Var "c0");
      Assign "c0" (Var "c1");
      Assign "c1" (Var "c2");
      Assign "c2" (Num 0);
      Call "_" "secp256k1_u128_mul" [Addr "t_11"; Load Pub (Op2 "[]" (Op1 ".d" (Var "a")) (Num 1)); Load Sec (Op2 "[]" (Op1 ".d" (Var "b")) (Num 3))];
      Call "t21" "secp256k1_u128_hi_u64" [Addr "t_11"];
      Assign "th_11" (Var "t21");
      Call "t22" "secp256k1_u128_to_u64" [Addr "t_11"];
      Assign "tl_11" (Var "t22");
      Assign "c0" (Op2 "+" (Var "c0") (Var "tl_11"));
      Assign "th_11" (Op2 "+" (Var "th_11") (Op2 "<" (Var "c0") (Var "tl_11")));
      Assign "c1" (Op2 "+" (Var "c1") (Var "th_11"));
      Assign "c2" (Op2 "+" (Var "c2") (Op2 "<" (Var "c1") (Var "th_11")));
      Call "_" "secp256k1_u128_mul" [Addr "t_12"; Load Pub (Op2 "[]" (Op1 ".d" (Var "a")) (Num 2)); Load Sec (Op2 "[]" (Op1 ".d" (Var "b")) (Num 2))];
      Call "t23" "secp256k1_u128_hi_u64" [Addr "t_12"];
      Assign "th_12" (Var "t23");
      Call "t24" "secp256k1_u128_to_u64" [Addr "t_12"];
      Assign "tl_12" (Var "t24");
      Assign "c0" (Op2 "+" (Var "c0") (Var "tl_12"));
      Assign "th_12" (Op2 "+" (Var "th_12") (Op2 "<" (Var "c0") (Var "tl_12")));
      Assign "c1" (Op2 "+" (Var "c1") (Var "th_12"));
      Assign "c2" (Op2 "+" (Var "c2") (Op2 "<" (Var "c1") (Var "th_12")));
      Call "_" "secp256k1_u128_mul" [Addr "t_13"; Load Pub (Op2 "[]" (Op1 ".d" (Var "a")) (Num 3)); Load Sec (Op2 "[]" (Op1 ".d" (Var "b")) (Num 1))];
      Call "t25" "secp256k1_u128_hi_u64" [Addr "t_13"];
      Assign "th_13" (Var "t25");
      Call "t26" "secp256k1_u128_to_u64" [Addr "t_13"];
      Assign "tl_13" (Var "t26");
      Assign "c0" (Op2 "+" (Var "c0") (Var "tl_13"));
      Assign "th_13" (Op2 "+" (Var "th_13") (Op2 "<" (Var "c0") (Var "tl_13")));
      Assign "c1" (Op2 "+" (Var "c1") (Var "th_13"));
      Assign "c2" (Op2 "+" (Var "c2") (Op2 "<" (Var "c1") (Var "th_13")));
      Store Sec (Op2 "[]" (Var "l8") (Num 4)) (Var "c0");
      Assign "c0" (Var "c1");
      Assign "c1" (Var "c2");
      Assign "c2" (Num 0);
      Call "_" "secp256k1_u128_mul" [Addr "t_14"; Load Pub (Op2 "[]" (Op1 ".d" (Var "a")) (Num 2)); Load Sec (Op2 "[]" (Op1 ".d" (Var "b")) (Num 3))];
      Call "t27" "secp256k1_u128_hi_u64" [Addr "t_14"];
      Assign "th_14" (Var "t27");
      Call "t28" "secp256k1_u128_to_u64" [Addr "t_14"];
      Assign "tl_14" (Var "t28");
      Assign "c0" (Op2 "+" (Var "c0") (Var "tl_14"));
      Assign "th_14" (Op2 "+" (Var "th_14") (Op2 "<" (Var "c0") (Var "tl_14")));
      Assign "c1" (Op2 "+" (Var "c1") (Var "th_14"));
      Assign "c2" (Op2 "+" (Var "c2") (Op2 "<" (Var "c1") (Var "th_14")));
      Call "_" "secp256k1_u128_mul" [Addr "t_15"; Load Pub (Op2 "[]" (Op1 ".d" (Var "a")) (Num 3)); Load Sec (Op2 "[]" (Op1 ".d" (Var "b")) (Num 2))];
      Call "t29" "secp256k1_u128_hi_u64" [Addr "t_15"];
      Assign "th_15" (Var "t29");
      Call "t30" "secp256k1_u128_to_u64" [Addr "t_15"];
      Assign "tl_15" (Var "t30");
      Assign "c0" (Op2 "+" (Var "c0") (Var "tl_15"));
      Assign "th_15" (Op2 "+" (Var "th_15") (Op2 "<" (Var "c0") (Var "tl_15")));
      Assign "c1" (Op2 "+" (Var "c1") (Var "th_15"));
      Assign "c2" (Op2 "+" (Var "c2") (Op2 "<" (Var "c1") (Var "th_15")));
      Store Sec (Op2 "[]" (Var "l8") (Num 5)) (Var "c0");
      Assign "c0" (Var "c1");
      Assign "c1" (Var "c2");
      Assign "c2" (Num 0);
      Call "_" "secp256k1_u128_mul" [Addr "t_16"; Load Pub (Op2 "[]" (Op1 ".d" (Var "a")) (Num 3)); Load Sec (Op2 "[]" (Op1 ".d" (Var "b")) (Num 3))];
      Call "t31" "secp256k1_u128_hi_u64" [Addr "t_16"];
      Assign "th_16" (Var "t31");
      Call "t32" "secp256k1_u128_to_u64" [Addr "t_16"];
      Assign "tl_16" (Var "t32");
      Assign "c0" (Op2 "+" (Var "c0") (Var "tl_16"));
      Assign "th_16" (Op2 "+" (Var "th_16") (Op2 "<" (Var "c0") (Var "tl_16")));
      Assign "c1" (Op2 "+" (Var "c1") (Var "th_16"));
      Store Sec (Op2 "[]" (Var "l8") (Num 6)) (Var "c0");
      Assign "c0" (Var "c1");
      Assign "c1" (Num 0);
      Store Sec (Op2 "[]" (Var "l8") (Num 7)) (Var "c0")]).
(** src/scalar_4x64_impl.h:855-864 secp256k1_scalar_mul@SPS *)
Definition c64_scalar_mul__SPS : func := mkfunc "secp256k1_scalar_mul@SPS" [("r", false); ("a", false); ("b", false)] false
  (seq [Call "_" "secp256k1_scalar_mul_512@SPS" [Addr "l"; Var "a"; Var "b"];
      Call "_" "secp256k1_scalar_reduce_512" [Var "r"; Addr "l"]]).
(** src/modules/musig/session_impl.h:179-182 secp256k1_musig_partial_sig_save *)
Definition c64_musig_partial_sig_save : func := mkfunc "secp256k1_musig_partial_sig_save" [("sig", false); ("s", false)] false
  (seq [Prim "memcpy" [Op2 "[]" (Op1 ".data" (Var "sig")) (Num 0); Op0 "secp256k1_musig_partial_sig_magic"; Num 4];
      Call "_" "secp256k1_scalar_get_b32" [Op2 "[]" (Op1 ".data" (Var "sig")) (Num 4); Var "s"]]).
(** src/modules/musig/session_impl.h:666-734 secp256k1_musig_partial_sign *)
Definition c64_musig_partial_sign : func := mkfunc "secp256k1_musig_partial_sign" [("ctx", false); ("partial_sig", false); ("secnonce", false); ("keypair", false); ("keyagg_cache", false); ("session", false)] false
  (seq [If (Op1 "!" (Op2 "!=" (Var "secnonce") (Num 0))) (seq [Prim "callback" [];
      Return (Num 0)]) (Skip);
      Call "t1" "secp256k1_musig_secnonce_load@SSPS" [Var "ctx"; Addr "k"; Addr "pk"; Var "secnonce"];
      Assign "ret" (Var "t1");
      Prim "memset" [Var "secnonce"; Num 0; Op0 "sizeof ( * secnonce )"];
      If (Op1 "!" (Var "ret")) (seq [Call "_" "secp256k1_musig_partial_sign_clear" [Addr "sk"; Addr "k"];
      Return (Num 0)]) (Skip);
      If (Op1 "!" (Op2 "!=" (Var "partial_sig") (Num 0))) (seq [Prim "callback" [];
      Return (Num 0)]) (Skip);
      If (Op1 "!" (Op2 "!=" (Var "keypair") (Num 0))) (seq [Prim "callback" [];
      Return (Num 0)]) (Skip);
      If (Op1 "!" (Op2 "!=" (Var "keyagg_cache") (Num 0))) (seq [Prim "callback" [];
      Return (Num 0)]) (Skip);
      If (Op1 "!" (Op2 "!=" (Var "session") (Num 0))) (seq [Prim "callback" [];
      Return (Num 0)]) (Skip);
      Call "t2" "secp256k1_keypair_load@SSPS" [Var "ctx"; Addr "sk"; Addr "keypair_pk"; Var "keypair"];
      If (Op1 "!" (Var "t2")) (seq [Call "_" "secp256k1_musig_partial_sign_clear" [Addr "sk"; Addr "k"];
      Return (Num 0)]) (Skip);
      Call "t4" "secp256k1_fe_equal@PP" [Op1 ".x" (Addr "pk"); Op1 ".x" (Addr "keypair_pk")];
      If (Var "t4") (seq [Call "t5" "secp256k1_fe_equal@PP" [Op1 ".y" (Addr "pk"); Op1 ".y" (Addr "keypair_pk")];
      Assign "t3" (Op2 "!=" (Var "t5") (Num 0))]) (Assign "t3" (Num 0));
      If (Op1 "!" (Var "t3")) (seq [Prim "callback" [];
      Return (Num 0)]) (Skip);
      Call "t6" "secp256k1_keyagg_cache_load@SPP" [Var "ctx"; Addr "cache_i"; Var "keyagg_cache"];
      If (Op1 "!" (Var "t6")) (seq [Call "_" "secp256k1_musig_partial_sign_clear" [Addr "sk"; Addr "k"];
      Return (Num 0)]) (Skip);
      Call "t7" "secp256k1_fe_impl_is_odd@P" [Op1 ".y" (Op1 ".pk" (Addr "cache_i"))];
      If (Op2 "!=" (Var "t7") (Load Pub (Op1 ".parity_acc" (Addr "cache_i")))) (Call "_" "secp256k1_scalar_negate" [Addr "sk"; Addr "sk"]) (Skip);
      Call "_" "secp256k1_musig_keyaggcoef@PPP" [Addr "mu"; Addr "cache_i"; Addr "pk"];
      Call "_" "secp256k1_scalar_mul@SSP" [Addr "sk"; Addr "sk"; Addr "mu"];
      Call "t8" "secp256k1_musig_session_load@SPP" [Var "ctx"; Addr "session_i"; Var "session"];
      If (Op1 "!" (Var "t8")) (seq [Call "_" "secp256k1_musig_partial_sign_clear" [Addr "sk"; Addr "k"];
      Return (Num 0)]) (Skip);
      If (Load Pub (Op1 ".fin_nonce_parity" (Addr "session_i"))) (seq [Call "_" "secp256k1_scalar_negate" [Op2 "[]" (Addr "k") (Num 0); Op2 "[]" (Addr "k") (Num 0)];
      Call "_" "secp256k1_scalar_negate" [Op2 "[]" (Addr "k") (Num 1); Op2 "[]" (Addr "k") (Num 1)]]) (Skip);
      Call "_" "secp256k1_scalar_mul@SPS" [Addr "s"; Op1 ".challenge" (Addr "session_i"); Addr "sk"];
      Call "_" "secp256k1_scalar_mul@SPS" [Op2 "[]" (Addr "k") (Num 1); Op1 ".noncecoef" (Addr "session_i"); Op2 "[]" (Addr "k") (Num 1)];
      Call "_" "secp256k1_scalar_add" [Op2 "[]" (Addr "k") (Num 0); Op2 "[]" (Addr "k") (Num 0); Op2 "[]" (Addr "k") (Num 1)];
      Call "_" "secp256k1_scalar_add" [Addr "s"; Addr "s"; Op2 "[]" (Addr "k") (Num 0)];
      Call "_" "secp256k1_musig_partial_sig_save" [Var "partial_sig"; Addr "s"];
      Call "_" "secp256k1_musig_partial_sign_clear" [Addr "sk"; Addr "k"];
      Return (Num 1)]).

(** All of them. *)
Definition c64_program : program :=
  [c64_read_be64;
   c64_scalar_check_overflow;
   c64_u128_from_u64;
   c64_u128_accum_u64;
   c64_u128_to_u64;
   c64_u128_rshift;
   c64_scalar_reduce;
   c64_scalar_set_b32;
   c64_scalar_is_zero;
   c64_scalar_set_b32_seckey;
   c64_scalar_clear;
   c64_ec_seckey_verify;
   c64_ecmult_gen_context_is_built;
   c64_scalar_cmov__SP;
   c64_scalar_add;
   c64_scalar_get_bits_limb32;
   c64_rotr32;
   c64_fe_storage_cmov__SP;
   c64_ge_storage_cmov__SP;
   c64_fe_impl_from_storage;
   c64_ge_from_storage;
   c64_fe_impl_negate_unchecked;
   c64_fe_impl_cmov;
   c64_fe_impl_set_int;
   c64_gej_set_ge;
   c64_u128_mul;
   c64_u128_accum_mul;
   c64_fe_sqr_inner;
   c64_fe_impl_sqr;
   c64_fe_mul_inner;
   c64_fe_impl_mul;
   c64_gej_rescale;
   c64_fe_impl_add;
   c64_fe_impl_normalizes_to_zero;
   c64_fe_impl_mul_int_unchecked;
   c64_fe_impl_half;
   c64_fe_impl_cmov__SP;
   c64_gej_add_ge;
   c64_gej_double;
   c64_fe_clear;
   c64_ge_clear;
   c64_ecmult_gen;
   c64_fe_impl_normalize;
   c64_fe_to_signed62;
   c64_modinv64_divsteps_59;
   c64_i128_mul;
   c64_i128_accum_mul;
   c64_i128_to_u64;
   c64_i128_rshift;
   c64_i128_to_i64;
   c64_modinv64_update_de_62__SSSP;
   c64_modinv64_update_fg_62;
   c64_modinv64_normalize_62__SP;
   c64_modinv64__SP;
   c64_fe_from_signed62;
   c64_fe_impl_inv;
   c64_ge_set_gej;
   c64_gej_clear;
   c64_ec_pubkey_create_helper;
   c64_fe_impl_to_storage;
   c64_ge_to_storage;
   c64_ge_to_bytes;
   c64_pubkey_save;
   c64_memczero;
   c64_ec_pubkey_create;
   c64_scalar_negate;
   c64_write_be64;
   c64_scalar_get_b32;
   c64_ec_seckey_negate;
   c64_eckey_privkey_tweak_add;
   c64_ec_seckey_tweak_add_helper;
   c64_ec_seckey_tweak_add;
   c64_u128_hi_u64;
   c64_scalar_mul_512;
   c64_scalar_reduce_512;
   c64_scalar_mul;
   c64_eckey_privkey_tweak_mul;
   c64_ec_seckey_tweak_mul;
   c64_context_is_proper;
   c64_scalar_half__SP;
   c64_ecmult_gen_scalar_diff;
   c64_fe_impl_normalize_weak;
   c64_ge_neg__SP;
   c64_scalar_add__SPS;
   c64_sha256_initialize;
   c64_read_be32;
   c64_sha256_transform;
   c64_sha256_write;
   c64_write_be32;
   c64_sha256_write__SP;
   c64_sha256_finalize;
   c64_hmac_sha256_initialize;
   c64_hmac_sha256_write;
   c64_hmac_sha256_write__SP;
   c64_hmac_sha256_finalize;
   c64_rfc6979_hmac_sha256_initialize;
   c64_rfc6979_hmac_sha256_generate;
   c64_fe_impl_set_b32_mod;
   c64_rfc6979_hmac_sha256_finalize;
   c64_rfc6979_hmac_sha256_clear;
   c64_ecmult_gen_blind;
   c64_context_randomize;
   c64_keypair_sec;
   c64_keypair_save;
   c64_keypair_create;
   c64_fe_impl_from_storage__PP;
   c64_ge_from_storage__PP;
   c64_ge_from_bytes__PP;
   c64_fe_impl_is_zero__P;
   c64_pubkey_load__SPP;
   c64_keypair_seckey_load;
   c64_keypair_load__SSPS;
   c64_fe_impl_is_odd__P;
   c64_fe_impl_negate_unchecked__PP;
   c64_extrakeys_ge_even_y__P;
   c64_read_be64__P;
   c64_scalar_set_b32__SPS;
   c64_ec_seckey_tweak_add_helper__SP;
   c64_scalar_check_overflow__P;
   c64_u128_from_u64__P;
   c64_u128_accum_u64__P;
   c64_u128_to_u64__P;
   c64_u128_rshift__P;
   c64_scalar_reduce__P;
   c64_scalar_set_b32__PPP;
   c64_ec_pubkey_tweak_add_helper__PP;
   c64_ge_to_storage__SP;
   c64_ge_to_bytes__SP;
   c64_pubkey_save__SP;
   c64_keypair_save__SSP;
   c64_keypair_xonly_tweak_add;
   c64_buffer_append;
   c64_nonce_function_rfc6979;
   c64_fe_impl_get_b32;
   c64_fe_impl_is_odd;
   c64_scalar_to_signed62;
   c64_scalar_from_signed62;
   c64_scalar_inverse;
   c64_scalar_is_high;
   c64_scalar_cond_negate;
   c64_ecdsa_sig_sign;
   c64_int_cmov;
   c64_ecdsa_sign_inner;
   c64_ecdsa_signature_save;
   c64_ecdsa_sign;
   c64_ecdsa_recoverable_signature_save;
   c64_ecdsa_sign_recoverable;
   c64_ge_is_infinity__P;
   c64_gej_set_infinity;
   c64_scalar_add__SSP;
   c64_scalar_half;
   c64_scalar_mul_512__SSP;
   c64_scalar_cadd_bit;
   c64_scalar_mul_shift_var__SSP;
   c64_scalar_mul__SSP;
   c64_scalar_split_lambda;
   c64_fe_impl_set_int__P;
   c64_gej_set_ge__PP;
   c64_gej_set_infinity__P;
   c64_u128_mul__P;
   c64_u128_accum_mul__P;
   c64_fe_mul_inner__PPP;
   c64_fe_impl_mul__PPP;
   c64_fe_sqr_inner__PP;
   c64_fe_impl_sqr__PP;
   c64_fe_impl_mul_int_unchecked__P;
   c64_fe_impl_half__P;
   c64_fe_impl_add__PP;
   c64_gej_double__PP;
   c64_gej_double_var__PPS;
   c64_ge_set_xy__PPP;
   c64_ge_set_gej_zinv__PPP;
   c64_fe_impl_normalizes_to_zero_var__P;
   c64_fe_impl_normalize_weak__P;
   c64_gej_double_var__PPP;
   c64_gej_add_ge_var__PPPP;
   c64_ecmult_odd_multiples_table__PPPP;
   c64_ge_set_ge_zinv__PPP;
   c64_ge_table_set_globalz__PP;
   c64_ecmult_const_odd_multiples_table_globalz__PPP;
   c64_ge_mul_lambda__PP;
   c64_scalar_get_bits_var;
   c64_fe_mul_inner__SSP;
   c64_fe_impl_mul__SSP;
   c64_ecmult_const__SPS;
   c64_sha256_clear;
   c64_ecdh_hash_function_sha256;
   c64_ecdh;
   c64_fe_impl_normalize_var__P;
   c64_ellswift_sha256_init_create;
   c64_read_be32__P;
   c64_sha256_transform__PP;
   c64_sha256_write__PP;
   c64_fe_impl_get_b32__SP;
   c64_ellswift_create;
   c64_fe_impl_set_b32_mod__PP;
   c64_fe_impl_add_int__P;
   c64_ecmult_const_xonly__SPPS;
   c64_ellswift_sha256_init_bip324;
   c64_ellswift_xdh_hash_function_bip324__SSPPS;
   c64_ellswift_xdh;
   c64_nonce_function_bip340_sha256_tagged_aux;
   c64_memcmp_var__PP;
   c64_nonce_function_bip340_sha256_tagged;
   c64_sha256_initialize_tagged__SP;
   c64_nonce_function_bip340__SSSSPS;
   c64_schnorrsig_sha256_tagged;
   c64_schnorrsig_challenge;
   c64_schnorrsig_sign_internal__SSSSPS;
   c64_schnorrsig_sign32;
   c64_schnorrsig_sign_internal;
   c64_schnorrsig_sign_custom;
   c64_is_zero_array;
   c64_musig_secnonce_invalidate;
   c64_ge_set_infinity__P;
   c64_ge_from_bytes_ext__PP;
   c64_scalar_set_b32__PPS;
   c64_keyagg_cache_load__SPP;
   c64_fe_impl_get_b32__PP;
   c64_eckey_pubkey_serialize__PPP;
   c64_nonce_function_musig_sha256_tagged_aux;
   c64_nonce_function_musig_sha256_tagged;
   c64_nonce_function_musig_helper__SP;
   c64_nonce_function_musig_helper;
   c64_nonce_function_musig__SSSSPPS;
   c64_musig_secnonce_save__SSP;
   c64_ge_set_gej_zinv;
   c64_ge_set_all_gej;
   c64_musig_pubnonce_save;
   c64_musig_nonce_gen_internal__SSSSSPSPS;
   c64_musig_nonce_gen;
   c64_keypair_pub__SPP;
   c64_musig_nonce_gen_counter;
   c64_musig_secnonce_load__SSPS;
   c64_musig_partial_sign_clear;
   c64_fe_impl_normalizes_to_zero__P;
   c64_fe_equal__PP;
   c64_ge_eq_var__PP;
   c64_scalar_set_int__P;
   c64_sha256_initialize__P;
   c64_musig_keyaggcoef_sha256__P;
   c64_write_be32__P;
   c64_sha256_finalize__PP;
   c64_musig_keyaggcoef_internal__PPPP;
   c64_musig_keyaggcoef__PPP;
   c64_musig_session_load__SPP;
   c64_scalar_mul_512__SPS;
   c64_scalar_mul__SPS;
   c64_musig_partial_sig_save;
   c64_musig_partial_sign].

(** What each function makes public on purpose, by itself or in the functions it calls; checked in CtReach.v. *)
Definition c64_tags : list (string * list string) :=
  [("secp256k1_read_be64", []);
   ("secp256k1_scalar_check_overflow", []);
   ("secp256k1_u128_from_u64", []);
   ("secp256k1_u128_accum_u64", []);
   ("secp256k1_u128_to_u64", []);
   ("secp256k1_u128_rshift", []);
   ("secp256k1_scalar_reduce", []);
   ("secp256k1_scalar_set_b32", []);
   ("secp256k1_scalar_is_zero", []);
   ("secp256k1_scalar_set_b32_seckey", []);
   ("secp256k1_scalar_clear", []);
   ("secp256k1_ec_seckey_verify", []);
   ("secp256k1_ecmult_gen_context_is_built", []);
   ("secp256k1_scalar_cmov@SP", []);
   ("secp256k1_scalar_add", []);
   ("secp256k1_scalar_get_bits_limb32", []);
   ("secp256k1_rotr32", []);
   ("secp256k1_fe_storage_cmov@SP", []);
   ("secp256k1_ge_storage_cmov@SP", []);
   ("secp256k1_fe_impl_from_storage", []);
   ("secp256k1_ge_from_storage", []);
   ("secp256k1_fe_impl_negate_unchecked", []);
   ("secp256k1_fe_impl_cmov", []);
   ("secp256k1_fe_impl_set_int", []);
   ("secp256k1_gej_set_ge", []);
   ("secp256k1_u128_mul", []);
   ("secp256k1_u128_accum_mul", []);
   ("secp256k1_fe_sqr_inner", []);
   ("secp256k1_fe_impl_sqr", []);
   ("secp256k1_fe_mul_inner", []);
   ("secp256k1_fe_impl_mul", []);
   ("secp256k1_gej_rescale", []);
   ("secp256k1_fe_impl_add", []);
   ("secp256k1_fe_impl_normalizes_to_zero", []);
   ("secp256k1_fe_impl_mul_int_unchecked", []);
   ("secp256k1_fe_impl_half", []);
   ("secp256k1_fe_impl_cmov@SP", []);
   ("secp256k1_gej_add_ge", []);
   ("secp256k1_gej_double", []);
   ("secp256k1_fe_clear", []);
   ("secp256k1_ge_clear", []);
   ("secp256k1_ecmult_gen", []);
   ("secp256k1_fe_impl_normalize", []);
   ("secp256k1_fe_to_signed62", []);
   ("secp256k1_modinv64_divsteps_59", []);
   ("secp256k1_i128_mul", []);
   ("secp256k1_i128_accum_mul", []);
   ("secp256k1_i128_to_u64", []);
   ("secp256k1_i128_rshift", []);
   ("secp256k1_i128_to_i64", []);
   ("secp256k1_modinv64_update_de_62@SSSP", []);
   ("secp256k1_modinv64_update_fg_62", []);
   ("secp256k1_modinv64_normalize_62@SP", []);
   ("secp256k1_modinv64@SP", []);
   ("secp256k1_fe_from_signed62", []);
   ("secp256k1_fe_impl_inv", []);
   ("secp256k1_ge_set_gej", []);
   ("secp256k1_gej_clear", []);
   ("secp256k1_ec_pubkey_create_helper", []);
   ("secp256k1_fe_impl_to_storage", []);
   ("secp256k1_ge_to_storage", []);
   ("secp256k1_ge_to_bytes", []);
   ("secp256k1_pubkey_save", []);
   ("secp256k1_memczero", []);
   ("secp256k1_ec_pubkey_create", []);
   ("secp256k1_scalar_negate", []);
   ("secp256k1_write_be64", []);
   ("secp256k1_scalar_get_b32", []);
   ("secp256k1_ec_seckey_negate", []);
   ("secp256k1_eckey_privkey_tweak_add", []);
   ("secp256k1_ec_seckey_tweak_add_helper", []);
   ("secp256k1_ec_seckey_tweak_add", []);
   ("secp256k1_u128_hi_u64", []);
   ("secp256k1_scalar_mul_512", []);
   ("secp256k1_scalar_reduce_512", []);
   ("secp256k1_scalar_mul", []);
   ("secp256k1_eckey_privkey_tweak_mul", []);
   ("secp256k1_ec_seckey_tweak_mul", []);
   ("secp256k1_context_is_proper", []);
   ("secp256k1_scalar_half@SP", []);
   ("secp256k1_ecmult_gen_scalar_diff", []);
   ("secp256k1_fe_impl_normalize_weak", []);
   ("secp256k1_ge_neg@SP", []);
   ("secp256k1_scalar_add@SPS", []);
   ("secp256k1_sha256_initialize", []);
   ("secp256k1_read_be32", []);
   ("secp256k1_sha256_transform", []);
   ("secp256k1_sha256_write", []);
   ("secp256k1_write_be32", []);
   ("secp256k1_sha256_write@SP", []);
   ("secp256k1_sha256_finalize", []);
   ("secp256k1_hmac_sha256_initialize", []);
   ("secp256k1_hmac_sha256_write", []);
   ("secp256k1_hmac_sha256_write@SP", []);
   ("secp256k1_hmac_sha256_finalize", []);
   ("secp256k1_rfc6979_hmac_sha256_initialize", []);
   ("secp256k1_rfc6979_hmac_sha256_generate", []);
   ("secp256k1_fe_impl_set_b32_mod", []);
   ("secp256k1_rfc6979_hmac_sha256_finalize", []);
   ("secp256k1_rfc6979_hmac_sha256_clear", []);
   ("secp256k1_ecmult_gen_blind", []);
   ("secp256k1_context_randomize", []);
   ("secp256k1_keypair_sec", []);
   ("secp256k1_keypair_save", []);
   ("secp256k1_keypair_create", []);
   ("secp256k1_fe_impl_from_storage@PP", []);
   ("secp256k1_ge_from_storage@PP", []);
   ("secp256k1_ge_from_bytes@PP", []);
   ("secp256k1_fe_impl_is_zero@P", []);
   ("secp256k1_pubkey_load@SPP", []);
   ("secp256k1_keypair_seckey_load", ["secp256k1_keypair_seckey_load: ret"]);
   ("secp256k1_keypair_load@SSPS", ["secp256k1_keypair_seckey_load: ret"; "secp256k1_keypair_load: pubkey"]);
   ("secp256k1_fe_impl_is_odd@P", []);
   ("secp256k1_fe_impl_negate_unchecked@PP", []);
   ("secp256k1_extrakeys_ge_even_y@P", []);
   ("secp256k1_read_be64@P", []);
   ("secp256k1_scalar_set_b32@SPS", []);
   ("secp256k1_ec_seckey_tweak_add_helper@SP", []);
   ("secp256k1_scalar_check_overflow@P", []);
   ("secp256k1_u128_from_u64@P", []);
   ("secp256k1_u128_accum_u64@P", []);
   ("secp256k1_u128_to_u64@P", []);
   ("secp256k1_u128_rshift@P", []);
   ("secp256k1_scalar_reduce@P", []);
   ("secp256k1_scalar_set_b32@PPP", []);
   ("secp256k1_ec_pubkey_tweak_add_helper@PP", []);
   ("secp256k1_ge_to_storage@SP", []);
   ("secp256k1_ge_to_bytes@SP", []);
   ("secp256k1_pubkey_save@SP", []);
   ("secp256k1_keypair_save@SSP", []);
   ("secp256k1_keypair_xonly_tweak_add", ["secp256k1_keypair_seckey_load: ret"; "secp256k1_keypair_load: pubkey"; "secp256k1_keypair_xonly_tweak_add: ret"]);
   ("buffer_append", []);
   ("nonce_function_rfc6979", []);
   ("secp256k1_fe_impl_get_b32", []);
   ("secp256k1_fe_impl_is_odd", []);
   ("secp256k1_scalar_to_signed62", []);
   ("secp256k1_scalar_from_signed62", []);
   ("secp256k1_scalar_inverse", []);
   ("secp256k1_scalar_is_high", []);
   ("secp256k1_scalar_cond_negate", []);
   ("secp256k1_ecdsa_sig_sign", []);
   ("secp256k1_int_cmov", []);
   ("secp256k1_ecdsa_sign_inner", ["secp256k1_ecdsa_sign_inner: is_nonce_valid"; "secp256k1_ecdsa_sign_inner: ret"]);
   ("secp256k1_ecdsa_signature_save", []);
   ("secp256k1_ecdsa_sign", ["secp256k1_ecdsa_sign_inner: is_nonce_valid"; "secp256k1_ecdsa_sign_inner: ret"]);
   ("secp256k1_ecdsa_recoverable_signature_save", []);
   ("secp256k1_ecdsa_sign_recoverable", ["secp256k1_ecdsa_sign_inner: is_nonce_valid"; "secp256k1_ecdsa_sign_inner: ret"]);
   ("secp256k1_ge_is_infinity@P", []);
   ("secp256k1_gej_set_infinity", []);
   ("secp256k1_scalar_add@SSP", []);
   ("secp256k1_scalar_half", []);
   ("secp256k1_scalar_mul_512@SSP", []);
   ("secp256k1_scalar_cadd_bit", []);
   ("secp256k1_scalar_mul_shift_var@SSP", []);
   ("secp256k1_scalar_mul@SSP", []);
   ("secp256k1_scalar_split_lambda", []);
   ("secp256k1_fe_impl_set_int@P", []);
   ("secp256k1_gej_set_ge@PP", []);
   ("secp256k1_gej_set_infinity@P", []);
   ("secp256k1_u128_mul@P", []);
   ("secp256k1_u128_accum_mul@P", []);
   ("secp256k1_fe_mul_inner@PPP", []);
   ("secp256k1_fe_impl_mul@PPP", []);
   ("secp256k1_fe_sqr_inner@PP", []);
   ("secp256k1_fe_impl_sqr@PP", []);
   ("secp256k1_fe_impl_mul_int_unchecked@P", []);
   ("secp256k1_fe_impl_half@P", []);
   ("secp256k1_fe_impl_add@PP", []);
   ("secp256k1_gej_double@PP", []);
   ("secp256k1_gej_double_var@PPS", []);
   ("secp256k1_ge_set_xy@PPP", []);
   ("secp256k1_ge_set_gej_zinv@PPP", []);
   ("secp256k1_fe_impl_normalizes_to_zero_var@P", []);
   ("secp256k1_fe_impl_normalize_weak@P", []);
   ("secp256k1_gej_double_var@PPP", []);
   ("secp256k1_gej_add_ge_var@PPPP", []);
   ("secp256k1_ecmult_odd_multiples_table@PPPP", []);
   ("secp256k1_ge_set_ge_zinv@PPP", []);
   ("secp256k1_ge_table_set_globalz@PP", []);
   ("secp256k1_ecmult_const_odd_multiples_table_globalz@PPP", []);
   ("secp256k1_ge_mul_lambda@PP", []);
   ("secp256k1_scalar_get_bits_var", []);
   ("secp256k1_fe_mul_inner@SSP", []);
   ("secp256k1_fe_impl_mul@SSP", []);
   ("secp256k1_ecmult_const@SPS", []);
   ("secp256k1_sha256_clear", []);
   ("ecdh_hash_function_sha256", []);
   ("secp256k1_ecdh", []);
   ("secp256k1_fe_impl_normalize_var@P", []);
   ("secp256k1_ellswift_sha256_init_create", []);
   ("secp256k1_read_be32@P", []);
   ("secp256k1_sha256_transform@PP", []);
   ("secp256k1_sha256_write@PP", []);
   ("secp256k1_fe_impl_get_b32@SP", []);
   ("secp256k1_ellswift_create", ["secp256k1_ellswift_create: &p"; "secp256k1_ellswift_create: &hash"]);
   ("secp256k1_fe_impl_set_b32_mod@PP", []);
   ("secp256k1_fe_impl_add_int@P", []);
   ("secp256k1_ecmult_const_xonly@SPPS", []);
   ("secp256k1_ellswift_sha256_init_bip324", []);
   ("ellswift_xdh_hash_function_bip324@SSPPS", []);
   ("secp256k1_ellswift_xdh", []);
   ("secp256k1_nonce_function_bip340_sha256_tagged_aux", []);
   ("secp256k1_memcmp_var@PP", []);
   ("secp256k1_nonce_function_bip340_sha256_tagged", []);
   ("secp256k1_sha256_initialize_tagged@SP", []);
   ("nonce_function_bip340@SSSSPS", []);
   ("secp256k1_schnorrsig_sha256_tagged", []);
   ("secp256k1_schnorrsig_challenge", []);
   ("secp256k1_schnorrsig_sign_internal@SSSSPS", ["secp256k1_keypair_seckey_load: ret"; "secp256k1_keypair_load: pubkey"; "secp256k1_schnorrsig_sign_internal: &r"]);
   ("secp256k1_schnorrsig_sign32", ["secp256k1_keypair_seckey_load: ret"; "secp256k1_keypair_load: pubkey"; "secp256k1_schnorrsig_sign_internal: &r"]);
   ("secp256k1_schnorrsig_sign_internal", ["secp256k1_keypair_seckey_load: ret"; "secp256k1_keypair_load: pubkey"; "secp256k1_schnorrsig_sign_internal: &r"]);
   ("secp256k1_schnorrsig_sign_custom", ["secp256k1_keypair_seckey_load: ret"; "secp256k1_keypair_load: pubkey"; "secp256k1_schnorrsig_sign_internal: &r"]);
   ("secp256k1_is_zero_array", []);
   ("secp256k1_musig_secnonce_invalidate", ["secp256k1_musig_secnonce_invalidate: secnonce->data"; "secp256k1_musig_secnonce_invalidate: &secnonce->data[68]"]);
   ("secp256k1_ge_set_infinity@P", []);
   ("secp256k1_ge_from_bytes_ext@PP", []);
   ("secp256k1_scalar_set_b32@PPS", []);
   ("secp256k1_keyagg_cache_load@SPP", []);
   ("secp256k1_fe_impl_get_b32@PP", []);
   ("secp256k1_eckey_pubkey_serialize@PPP", []);
   ("secp256k1_nonce_function_musig_sha256_tagged_aux", []);
   ("secp256k1_nonce_function_musig_sha256_tagged", []);
   ("secp256k1_nonce_function_musig_helper@SP", []);
   ("secp256k1_nonce_function_musig_helper", []);
   ("secp256k1_nonce_function_musig@SSSSPPS", []);
   ("secp256k1_musig_secnonce_save@SSP", []);
   ("secp256k1_ge_set_gej_zinv", []);
   ("secp256k1_ge_set_all_gej", []);
   ("secp256k1_musig_pubnonce_save", []);
   ("secp256k1_musig_nonce_gen_internal@SSSSSPSPS", ["secp256k1_musig_secnonce_invalidate: secnonce->data"; "secp256k1_musig_secnonce_invalidate: &secnonce->data[68]"; "secp256k1_musig_nonce_gen_internal: &nonce_pts[i]"]);
   ("secp256k1_musig_nonce_gen", ["secp256k1_musig_secnonce_invalidate: secnonce->data"; "secp256k1_musig_secnonce_invalidate: &secnonce->data[68]"; "secp256k1_musig_nonce_gen_internal: &nonce_pts[i]"; "secp256k1_musig_nonce_gen: ret"]);
   ("secp256k1_keypair_pub@SPP", []);
   ("secp256k1_musig_nonce_gen_counter", ["secp256k1_musig_secnonce_invalidate: secnonce->data"; "secp256k1_musig_secnonce_invalidate: &secnonce->data[68]"; "secp256k1_musig_nonce_gen_internal: &nonce_pts[i]"; "secp256k1_musig_nonce_gen_counter: secret key is valid"]);
   ("secp256k1_musig_secnonce_load@SSPS", ["secp256k1_musig_secnonce_load: is_zero"]);
   ("secp256k1_musig_partial_sign_clear", []);
   ("secp256k1_fe_impl_normalizes_to_zero@P", []);
   ("secp256k1_fe_equal@PP", []);
   ("secp256k1_ge_eq_var@PP", []);
   ("secp256k1_scalar_set_int@P", []);
   ("secp256k1_sha256_initialize@P", []);
   ("secp256k1_musig_keyaggcoef_sha256@P", []);
   ("secp256k1_write_be32@P", []);
   ("secp256k1_sha256_finalize@PP", []);
   ("secp256k1_musig_keyaggcoef_internal@PPPP", []);
   ("secp256k1_musig_keyaggcoef@PPP", []);
   ("secp256k1_musig_session_load@SPP", []);
   ("secp256k1_scalar_mul_512@SPS", []);
   ("secp256k1_scalar_mul@SPS", []);
   ("secp256k1_musig_partial_sig_save", []);
   ("secp256k1_musig_partial_sign", ["secp256k1_musig_secnonce_load: is_zero"; "secp256k1_keypair_seckey_load: ret"; "secp256k1_keypair_load: pubkey"])].
