(** Vocabulary for the machine-word helpers (C47, C48). *)
Require Import ZArith List Bool.
From Verif Require Import FieldModel GroupModel Int128Model.
Local Open Scope Z_scope.

(** Both words are 64-bit. *)
Definition words (r : w128s) : Prop := 0 <= hi128 r < 2 ^ 64 /\ 0 <= lo128 r < 2 ^ 64.
(** The number represented, unsigned and signed (two's complement). *)
Definition uval (r : w128s) : Z := hi128 r * 2 ^ 64 + lo128 r.
Definition ival (r : w128s) : Z := if uval r <? 2 ^ 127 then uval r else uval r - 2 ^ 128.
(** The ranges of uint64_t, int64_t and of a signed 128-bit integer. *)
Definition is_u64 (x : Z) : Prop := 0 <= x < 2 ^ 64.
Definition is_i64 (x : Z) : Prop := - 2 ^ 63 <= x < 2 ^ 63.
Definition is_i128 (x : Z) : Prop := - 2 ^ 127 <= x < 2 ^ 127.
(** Arbitrary words: no bound but that of the machine type. *)
Definition fe_words (a : fe) : Prop := is_u64 (n0 a) /\ is_u64 (n1 a) /\ is_u64 (n2 a) /\ is_u64 (n3 a) /\ is_u64 (n4 a).
Definition fes_words (a : fe_storage) : Prop := is_u64 (s0 a) /\ is_u64 (s1 a) /\ is_u64 (s2 a) /\ is_u64 (s3 a).
Definition gej_words (a : gej) : Prop := fe_words (jx a) /\ fe_words (jy a) /\ fe_words (jz a).
Definition ges_words (a : ge_storage) : Prop := fes_words (stx a) /\ fes_words (sty a).
(** What a selection has to return. *)
Definition chosen {A} (flag : Z) (r a : A) : A := if flag =? 1 then a else r.

